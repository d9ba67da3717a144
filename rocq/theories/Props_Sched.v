(** * C43: saves and loads that run at the same time. *)
From Verif Require Import Base PyInt PyFloat PyStr Versions Wire Layout Shape Spec FS Sched.
From Verif Require Import M_DatFile Codec Theory Sample Update Props_FS.
Open Scope Z_scope.
Local Open Scope list_scope.
Local Notation length := List.length.

Lemma put_same st i s : put st i s i = s. Proof. unfold put. destruct (Nat.eq_dec i i); congruence. Qed.
Lemma put_other st i s j : j <> i -> put st i s j = st j. Proof. unfold put. destruct (Nat.eq_dec j i); congruence. Qed.
Lemma nth_skipn {A} (l : list A) n j : nth_error (skipn n l) j = nth_error l (n + j).
Proof. revert l. induction n as [|n IH]; intros [|a l]; try reflexivity; [destruct j; reflexivity|]. apply IH. Qed.
Lemma nth_firstn {A} (l : list A) n j : (j < n)%nat -> nth_error (firstn n l) j = nth_error l j.
Proof. revert l j. induction n as [|n IH]; intros [|a l] [|j] H; try lia; try reflexivity. cbn [firstn nth_error]. apply IH. lia. Qed.
Lemma nth_write_at cur pos data j : nth_error (write_at cur pos data) j =
  if Nat.ltb j pos then (if Nat.ltb j (length cur) then nth_error cur j else Some (byte_of 0))
  else if Nat.ltb j (pos + length data) then nth_error data (j - pos) else nth_error cur j.
Proof.
  unfold write_at. destruct (Nat.ltb_spec j pos) as [A|A].
  - destruct (Nat.ltb_spec j (length cur)) as [B|B].
    + rewrite nth_error_app1 by (rewrite firstn_length; lia). apply nth_firstn, A.
    + rewrite nth_error_app2 by (rewrite firstn_length; lia). rewrite nth_error_app1 by (rewrite firstn_length, repeat_length; lia).
      rewrite nth_error_repeat by (rewrite firstn_length; lia). reflexivity.
  - rewrite nth_error_app2 by (rewrite firstn_length; lia). rewrite nth_error_app2 by (rewrite firstn_length, repeat_length; lia).
    rewrite firstn_length, repeat_length. replace (j - Nat.min pos (length cur) - (pos - length cur))%nat with (j - pos)%nat by lia.
    destruct (Nat.ltb_spec j (pos + length data)) as [B|B]; [rewrite nth_error_app1 by lia; reflexivity|].
    rewrite nth_error_app2 by lia. rewrite nth_skipn. f_equal. lia.
Qed.
Lemma length_write_at cur pos data : length (write_at cur pos data) = Nat.max (length cur) (pos + length data).
Proof. unfold write_at. rewrite !app_length, firstn_length, repeat_length, skipn_length. lia. Qed.
Lemma length_piece {A} (c : list A) n k : (n + k <= length c)%nat -> length (firstn k (skipn n c)) = k.
Proof. intros H. rewrite firstn_length, skipn_length. lia. Qed.

Lemma firstn_more {A} (l : list A) a k : firstn a l ++ firstn k (skipn a l) = firstn (a + k) l.
Proof.
  revert l. induction a as [|a IH]; intros l; [reflexivity|]. destruct l as [|x l]; [destruct k; reflexivity|]. cbn [firstn skipn app Nat.add]. f_equal. apply IH.
Qed.
Lemma skipn_more {A} (l : list A) a k : skipn (a + k) l = skipn k (skipn a l).
Proof. revert l. induction a as [|a IH]; intros l; [reflexivity|]. destruct l as [|x l]; [destruct k; reflexivity|]. apply IH. Qed.
(** What a job knows. *)
Definition knows (deflate : bytes -> bytes) (j : job) (s : status) : Prop :=
  match j, s with
  | Save x p, Waiting => True
  | Save x p, Opening c => exists b, to_bytes x = Ok b /\ c = deflate b
  | Save x p, Writing c n => exists b, to_bytes x = Ok b /\ c = deflate b /\ (n <= length c)%nat
  | Save x p, Saved (Raised _) => True
  | Save x p, Saved _ => exists b, to_bytes x = Ok b
  | Load p, (Waiting | Reading _ | Loaded _) => True
  | _, _ => False
  end.
Lemma runs_knows deflate inflate jobs f0 s : runs deflate inflate jobs f0 s -> forall i j, nth_error jobs i = Some j -> knows deflate j (fst s i).
Proof.
  intros H. induction H as [|st f i j s' f' R IH N S]; intros i' j' N'; [destruct j'; exact I|]. cbn [fst] in *.
  destruct (Nat.eq_dec i' i) as [->|D]; [rewrite put_same|rewrite put_other by exact D; apply IH, N'].
  rewrite N in N'. injection N' as <-. specialize (IH i j N). inversion S; subst; cbn [knows]; try exact I; eauto;
  match goal with H : _ = st i |- _ => rewrite <- H in IH end; cbn [knows] in IH; destruct IH as (b & E & IH); exists b; try exact E.
  - split; [exact E|]. split; [exact IH|]. lia.
  - split; [exact E|]. split; [apply IH|]. assumption.
Qed.
(** The files a step changes. *)
Lemma job_step_other deflate inflate j s f s' f' p : job_step deflate inflate j (s, f) (s', f') -> knows deflate j s ->
  (forall b, ~ writes j p b) -> f' p = f p.
Proof.
  intros S K NW. inversion S; subst; try reflexivity; cbn [knows] in K; apply set_other; intros ->; destruct K as (b & E & _); apply (NW b); exists x; auto.
Qed.

(** ** Files nobody writes to *)
Theorem C43_untouched : forall deflate inflate jobs f0 st f p, runs deflate inflate jobs f0 (st, f) ->
  (forall j b, In j jobs -> ~ writes j p b) -> f p = f0 p.
Proof.
  intros deflate inflate jobs f0 st f p R NW. change (snd (st, f) p = f0 p). induction R as [|st' g i j s' f' R IH N S]; [reflexivity|]. cbn [snd] in *.
  rewrite <- IH. eapply job_step_other; [exact S|exact (runs_knows _ _ _ _ _ R i j N)|]. intros b. apply NW. exact (nth_error_In _ _ N).
Qed.
(** Loading such a file gives what it would give alone. *)
Theorem C43_load : forall deflate inflate jobs f0 st f i p r, runs deflate inflate jobs f0 (st, f) ->
  (forall j b, In j jobs -> ~ writes j p b) -> nth_error jobs i = Some (Load p) -> st i = Loaded r -> r = parse inflate f0 p.
Proof.
  intros deflate inflate jobs f0 st f i p r R NW N.
  assert (Inv : forall s, runs deflate inflate jobs f0 s -> match fst s i with
    | Reading acc => exists cur, f0 p = Some cur /\ acc = firstn (length acc) cur | Loaded r => r = parse inflate f0 p | _ => True end).
  { intros s H. induction H as [|st' g i' j s' f' R' IH N' S]; [exact I|]. cbn [fst] in *. destruct (Nat.eq_dec i i') as [<-|D]; [rewrite put_same|rewrite put_other by exact D; exact IH].
    rewrite N in N'. injection N' as <-. pose proof (C43_untouched _ _ _ _ _ _ p R' NW) as U. inversion S; subst.
    - unfold parse. rewrite <- U. match goal with H : _ p = None |- _ => rewrite H end. reflexivity.
    - exists cur. split; [congruence|reflexivity].
    - match goal with H : _ = st' i |- _ => rewrite <- H in IH end. destruct IH as (c & C & A). exists c. split; [exact C|].
      assert (cur = c) by congruence. subst c. rewrite app_length, length_piece by assumption. rewrite A at 1. symmetry.
      transitivity (firstn (length acc) cur ++ skipn (length acc) (firstn (length acc + k) cur)).
      + rewrite <- (firstn_skipn (length acc) (firstn (length acc + k) cur)) at 1. rewrite firstn_firstn. f_equal. f_equal. lia.
      + f_equal. rewrite skipn_firstn_comm. f_equal. lia.
    - match goal with H : _ = st' i |- _ => rewrite <- H in IH end. destruct IH as (c & C & A). assert (cur = c) by congruence. subst c.
      rewrite firstn_all2 in A by assumption. subst acc. unfold parse. rewrite C. reflexivity. }
  intros E. specialize (Inv _ R). cbn [fst] in Inv. rewrite E in Inv. exact Inv.
Qed.

(** ** Files that several jobs write the same bytes to *)
(** How far a job of the last one to open the file has come. *)
Definition progress (s : status) (c : bytes) : option nat :=
  match s with Writing _ n => Some n | Saved Returned => Some (length c) | Saved OsFailed => Some 0%nat | _ => None end.
Definition right_up_to (n : nat) (cur c : bytes) : Prop := forall i, (i < n)%nat -> nth_error cur i = nth_error c i.
Lemma right_write cur c n k m : (n + k <= length c)%nat -> (m <= length c)%nat -> right_up_to m cur c -> right_up_to m (write_at cur n (firstn k (skipn n c))) c.
Proof.
  intros H Hm R i Hi. rewrite nth_write_at, length_piece by exact H. specialize (R i Hi).
  destruct (Nat.ltb_spec i n).
  - destruct (Nat.ltb_spec i (length cur)); [exact R|]. exfalso. assert (nth_error cur i = None) as C by (apply nth_error_None; lia).
    rewrite C in R. symmetry in R. apply nth_error_None in R. lia.
  - destruct (Nat.ltb_spec i (n + k)); [|exact R]. rewrite nth_firstn by lia. rewrite nth_skipn. f_equal. lia.
Qed.
Lemma right_extend cur c n k : (n + k <= length c)%nat -> right_up_to n cur c -> right_up_to (n + k) (write_at cur n (firstn k (skipn n c))) c.
Proof.
  intros H R i Hi. destruct (Nat.ltb_spec i n); [apply (right_write cur c n k n H ltac:(lia) R i); assumption|].
  rewrite nth_write_at, length_piece by exact H. destruct (Nat.ltb_spec i n); [lia|]. destruct (Nat.ltb_spec i (n + k)); [|lia].
  rewrite nth_firstn by lia. rewrite nth_skipn. f_equal. lia.
Qed.
Lemma nth_ext {A} (l m : list A) : (forall i, nth_error l i = nth_error m i) -> l = m.
Proof.
  revert m. induction l as [|a l IH]; intros [|b m] H; [reflexivity|discriminate (H 0%nat)|discriminate (H 0%nat)|].
  f_equal; [specialize (H 0%nat); cbn in H; congruence|]. apply IH. intros i. exact (H (S i)).
Qed.
Lemma right_all cur c : (length cur <= length c)%nat -> right_up_to (length c) cur c -> cur = c.
Proof.
  intros L R. apply nth_ext. intros i. destruct (Nat.ltb_spec i (length c)); [apply R; assumption|].
  rewrite (proj2 (nth_error_None cur i)) by lia. symmetry. apply nth_error_None. lia.
Qed.
Lemma same_inv deflate inflate jobs f0 p b : (forall j b', In j jobs -> writes j p b' -> b' = b) -> forall s, runs deflate inflate jobs f0 s ->
  (snd s p = f0 p /\ forall i x c n, nth_error jobs i = Some (Save x p) -> fst s i <> Writing c n /\ fst s i <> Saved Returned) \/
  (exists i x cur m, nth_error jobs i = Some (Save x p) /\ progress (fst s i) (deflate b) = Some m /\ (m <= length (deflate b))%nat /\
    snd s p = Some cur /\ (length cur <= length (deflate b))%nat /\ right_up_to m cur (deflate b)).
Proof.
  intros HB s H. set (c := deflate b). induction H as [|st f i j s' f' R IH N S]; [left; split; [reflexivity|intros; split; discriminate]|]. cbn [fst snd] in *.
  pose proof (runs_knows _ _ _ _ _ R i j N) as K. cbn [fst] in K. pose proof (nth_error_In _ _ N) as J.
  assert (D : (exists x, j = Save x p) \/ forall x, j <> Save x p).
  { destruct j as [x q|q]; [|right; discriminate]. destruct (path_eq_dec q p) as [->|Q]; [left; eauto|right; congruence]. }
  destruct D as [(x & ->)|D].
  - assert (C : forall b', to_bytes x = Ok b' -> deflate b' = c) by (intros b' E; unfold c; f_equal; apply (HB _ b' J); exists x; auto).
    (* a step of a job that saves to p *)
    assert (Quiet : f' = f -> (forall c n, s' <> Writing c n) -> (s' <> Saved Returned) -> (progress (st i) c <> None -> exists m, progress s' c = Some m /\ (progress (st i) c = Some m \/ m = 0%nat)) ->
      (f' p = f0 p /\ forall i' x c n, nth_error jobs i' = Some (Save x p) -> put st i s' i' <> Writing c n /\ put st i s' i' <> Saved Returned) \/
      (exists i' x cur m, nth_error jobs i' = Some (Save x p) /\ progress (put st i s' i') c = Some m /\ (m <= length c)%nat /\ f' p = Some cur /\ (length cur <= length c)%nat /\ right_up_to m cur c)).
    { intros -> Q1 Q2 Q3. destruct IH as [[E W]|(i' & x' & cur & m & N' & P & Lm & F & L & Rt)].
      - left. split; [exact E|]. intros i' x' c' n' N'. destruct (Nat.eq_dec i' i) as [->|Ne]; [rewrite put_same; auto 10|rewrite put_other by exact Ne; apply (W i' x' c' n' N')].
      - right. destruct (Nat.eq_dec i' i) as [->|Ne].
        + destruct Q3 as (m' & P' & Hm); [congruence|]. exists i, x, cur, m'. rewrite put_same. split; [exact N|]. split; [exact P'|].
          destruct Hm as [Hm| ->]; [assert (m' = m) as -> by congruence; auto 10|]. split; [lia|]. split; [exact F|]. split; [exact L|]. intros ? ?; lia.
        + exists i', x', cur, m. rewrite put_other by exact Ne. auto 10. }
    inversion S; subst; try match goal with H : _ = st i |- _ => rewrite <- H in *; cbn [knows progress] in * end.
    + apply Quiet; [reflexivity|discriminate|discriminate|intros Q; destruct (Q eq_refl)].
    + apply Quiet; [reflexivity|discriminate|discriminate|intros Q; destruct (Q eq_refl)].
    + right. exists i, x, [], 0%nat. rewrite put_same, set_same. repeat split; [exact N|lia|cbn; lia|]. intros ? ?; lia.
    + apply Quiet; [reflexivity|discriminate|discriminate|intros Q; destruct (Q eq_refl)].
    + destruct K as (b' & E & -> & Ln). rewrite (C b' E) in *. clear Quiet.
      assert (L' : forall cur', (length cur' <= length c)%nat -> (length (write_at cur' n (firstn k (skipn n c))) <= length c)%nat).
      { intros cur' L'. rewrite length_write_at, length_piece by assumption. lia. }
      destruct IH as [[_ W]|(i' & x' & cur' & m & N' & P & Lm & F & L & Rt)].
      * exfalso. destruct (W i x c n N) as [W1 _]. apply W1. auto 10.
      * right. assert (cur' = cur) by congruence. subst cur'. destruct (Nat.eq_dec i' i) as [->|Ne].
        -- exists i, x, (write_at cur n (firstn k (skipn n c))), (n + k)%nat. rewrite put_same, set_same.
           match goal with H : _ = st i |- _ => rewrite <- H in P end. cbn [progress] in *. injection P as <-.
           split; [exact N|]. split; [reflexivity|]. split; [assumption|]. split; [reflexivity|]. split; [apply L', L|]. apply right_extend; assumption.
        -- exists i', x', (write_at cur n (firstn k (skipn n c))), m. rewrite put_other, set_same by exact Ne.
           split; [exact N'|]. split; [exact P|]. split; [exact Lm|]. split; [reflexivity|]. split; [apply L', L|]. apply right_write; assumption.
    + apply Quiet; [reflexivity|discriminate|discriminate|]. intros _. exists 0%nat. auto 10.
    + destruct K as (b' & E & -> & Ln). rewrite (C b' E) in *. clear Quiet.
      destruct IH as [[_ W]|(i' & x' & cur' & m & N' & P & Lm & F & L & Rt)].
      * exfalso. destruct (W i x c (length c) N) as [W1 _]. apply W1. auto 10.
      * right. destruct (Nat.eq_dec i' i) as [->|Ne].
        -- exists i, x, cur', m. rewrite put_same. match goal with H : _ = st i |- _ => rewrite <- H in P end. cbn [progress] in *. auto 10.
        -- exists i', x', cur', m. rewrite put_other by exact Ne. auto 10.
  - assert (F : f' p = f p).
    { eapply job_step_other; [exact S|exact K|]. intros b' (x & -> & _). exact (D x eq_refl). }
    rewrite F. assert (Ne : forall i' x, nth_error jobs i' = Some (Save x p) -> i' <> i) by (intros i' x N' ->; rewrite N in N'; injection N' as ->; exact (D x eq_refl)).
    destruct IH as [[E W]|(i' & x' & cur & m & N' & P & Q)].
    + left. split; [exact E|]. intros i' x' c' n' N'. rewrite put_other by exact (Ne _ _ N'). apply (W i' x' c' n' N').
    + right. exists i', x', cur, m. rewrite put_other by exact (Ne _ _ N'). auto 10.
Qed.
Theorem C43_same : forall deflate inflate jobs f0 st f p b, runs deflate inflate jobs f0 (st, f) ->
  (forall j b', In j jobs -> writes j p b' -> b' = b) -> (exists j, In j jobs /\ writes j p b) ->
  (forall i j, nth_error jobs i = Some j -> writes j p b -> st i = Saved Returned) -> f p = Some (deflate b).
Proof.
  intros deflate inflate jobs f0 st f p b R HB (j & J & x & -> & E) All. apply In_nth_error in J as (i & N).
  assert (W : st i = Saved Returned) by (apply (All i _ N); exists x; auto).
  destruct (same_inv deflate inflate jobs f0 p b HB _ R) as [[_ H]|(i' & x' & cur & m & N' & P & Lm & F & L & Rt)]; cbn [fst snd] in *.
  - destruct (H i x [] 0%nat N) as [_ H']. congruence.
  - pose proof (runs_knows _ _ _ _ _ R i' _ N') as K. cbn [fst] in K.
    assert (exists b', to_bytes x' = Ok b') as (b' & E').
    { destruct (st i') as [|c|c n|[|e|]|acc|r]; cbn [knows progress] in *; try discriminate; destruct K as (b' & K); [exists b'; apply K|exists b'; exact K|exists b'; exact K]. }
    assert (b' = b) by (apply (HB _ b' (nth_error_In _ _ N')); exists x'; auto). subst b'.
    assert (W' : st i' = Saved Returned) by (apply (All i' _ N'); exists x'; auto). rewrite W' in P. cbn [progress] in P. injection P as <-.
    rewrite F. f_equal. apply right_all; assumption.
Qed.

(** ** A file that one job writes to: as if that job ran alone *)
Definition phase_of (s : status) : phase :=
  match s with
  | Opening c => Open c
  | Writing c n => Write (skipn n c)
  | Saved e => End e
  | _ => Begin
  end.
Theorem C43_alone : forall deflate inflate jobs f0 st f i x p, runs deflate inflate jobs f0 (st, f) ->
  nth_error jobs i = Some (Save x p) -> (forall i' j b, i' <> i -> nth_error jobs i' = Some j -> ~ writes j p b) ->
  exists g, reach deflate x p f0 (phase_of (st i), g) /\ g p = f p.
Proof.
  intros deflate inflate jobs f0 st f i x p R N NW.
  assert (Inv : forall s, runs deflate inflate jobs f0 s -> exists g, reach deflate x p f0 (phase_of (fst s i), g) /\ g p = snd s p /\
     forall c n, fst s i = Writing c n -> exists cur, g p = Some cur /\ length cur = n).
  { intros s H. induction H as [|st' f1 i' j s' f' R' IH N' S]; [exists f0; split; [apply r_start|]; split; [reflexivity|discriminate]|]. cbn [fst snd] in *.
    destruct IH as (g & G & E & Hn). pose proof (runs_knows _ _ _ _ _ R' i' j N') as K. cbn [fst] in K. destruct (Nat.eq_dec i' i) as [->|Ne].
    - rewrite N in N'. injection N' as <-. rewrite put_same. inversion S; subst; match goal with H : _ = st' i |- _ => rewrite <- H in * end; cbn [phase_of knows] in *.
      + exists g. split; [eapply r_step; [exact G|apply s_raise; assumption]|]. split; [exact E|discriminate].
      + exists g. split; [eapply r_step; [exact G|apply s_bytes; assumption]|]. split; [exact E|discriminate].
      + exists (set_file g p []). split; [eapply r_step; [exact G|apply s_open]|]. rewrite !set_same. split; [reflexivity|].
        intros c' n' [= -> <-]. exists []. auto.
      + exists g. split; [eapply r_step; [exact G|apply s_open_fails]|]. split; [exact E|discriminate].
      + destruct (Hn c n eq_refl) as (cur' & E' & Ln). assert (cur' = cur) by congruence. subst cur'.
        assert (X : write_at cur n (firstn k (skipn n c)) = cur ++ firstn k (skipn n c)).
        { unfold write_at. rewrite length_piece by assumption. replace (firstn n cur) with cur by (symmetry; apply firstn_all2; lia). replace (skipn (n + k) cur) with (@nil byte) by (symmetry; apply skipn_all2; lia). replace (n - length cur)%nat with 0%nat by lia. cbn [repeat app]. rewrite app_nil_r. reflexivity. }
        exists (set_file g p (cur ++ firstn k (skipn n c))). rewrite !set_same. split; [|split].
        * assert (Sk : skipn (n + k) c = skipn k (skipn n c)) by apply skipn_more. rewrite Sk.
          eapply r_step; [exact G|]. apply s_write; [exact E'|]. rewrite skipn_length. lia.
        * rewrite X. reflexivity.
        * intros c' n' [= _ <-]. eexists. split; [reflexivity|]. rewrite app_length, length_piece by assumption. lia.
      + exists g. split; [eapply r_step; [exact G|apply s_write_fails]|]. split; [exact E|discriminate].
      + exists g. rewrite skipn_all in G. split; [eapply r_step; [exact G|apply s_close]|]. split; [exact E|discriminate].
    - rewrite put_other by (apply not_eq_sym, Ne). exists g. split; [exact G|]. split; [|exact Hn]. rewrite E. symmetry.
      eapply job_step_other; [exact S|exact K|]. intros b. apply (NW i' j b Ne N'). }
  destruct (Inv _ R) as (g & G & E & _). exists g. auto.
Qed.
(** So, when it has returned, the file holds the object, whatever else went on. *)
Theorem C43_saved : forall deflate inflate, inverts inflate deflate -> forall jobs f0 st f i x p, runs deflate inflate jobs f0 (st, f) ->
  nth_error jobs i = Some (Save x p) -> (forall i' j b, i' <> i -> nth_error jobs i' = Some j -> ~ writes j p b) ->
  DatFile_wf x -> st i = Saved Returned -> parse inflate f p = Ok x.
Proof.
  intros deflate inflate I jobs f0 st f i x p R N NW W E. destruct (C43_alone _ _ _ _ _ _ _ _ _ R N NW) as (g & G & Eg). rewrite E in G. cbn [phase_of] in G.
  destruct (C27_save_parse _ _ I _ _ _ _ W G) as [P _]. unfold parse in *. rewrite <- Eg. exact P.
Qed.
(** Loading a file while it is saved again unchanged gives what is in it or raises. *)
Theorem C43_resave : forall deflate inflate, inverts inflate deflate -> detects_cuts inflate deflate ->
  forall jobs f0 st f i x p b k r, runs deflate inflate jobs f0 (st, f) ->
  nth_error jobs i = Some (Save x p) -> (forall i' j b, i' <> i -> nth_error jobs i' = Some j -> ~ writes j p b) ->
  to_bytes x = Ok b -> f0 p = Some (deflate b) -> nth_error jobs k = Some (Load p) -> st k = Loaded r ->
  r = parse inflate f0 p \/ exists e, r = Err e.
Proof.
  intros deflate inflate I D jobs f0 st f i x p b k r R N NW E F0 Nk.
  assert (Cur : forall st f cur, runs deflate inflate jobs f0 (st, f) -> f p = Some cur -> cur = firstn (length cur) (deflate b)).
  { intros st' f' cur R' F. destruct (C43_alone _ _ _ _ _ _ _ _ _ R' N NW) as (g & G & Eg). destruct (C29_crash_states _ _ _ _ _ G) as (_ & H). cbn [snd] in H. rewrite Eg, F in H.
    destruct H as [H|(b' & m & E' & H)].
    - rewrite F0 in H. injection H as ->. symmetry. apply firstn_all.
    - assert (b' = b) by congruence. subst b'. injection H as ->. rewrite firstn_length. destruct (Nat.le_ge_cases m (length (deflate b))) as [Lm|Lm]; [rewrite Nat.min_l by exact Lm; reflexivity|].
      rewrite Nat.min_r by exact Lm. rewrite firstn_all, firstn_all2 by exact Lm. reflexivity. }
  assert (Inv : forall s, runs deflate inflate jobs f0 s -> match fst s k with
    | Reading acc => acc = firstn (length acc) (deflate b) | Loaded r => r = parse inflate f0 p \/ exists e, r = Err e | _ => True end).
  { intros s H. induction H as [|st' g i' j s' f' R' IH N' S]; [exact Logic.I|]. cbn [fst] in *. destruct (Nat.eq_dec k i') as [<-|Ne]; [rewrite put_same|rewrite put_other by exact Ne; exact IH].
    rewrite Nk in N'. injection N' as <-. inversion S; subst.
    - right. eauto.
    - reflexivity.
    - match goal with H : _ = st' k |- _ => rewrite <- H in IH end. match goal with H : _ p = Some cur |- _ => pose proof (Cur _ _ _ R' H) as C end.
      rewrite app_length, length_piece by assumption. rewrite IH at 1. rewrite C at 1.
      rewrite skipn_firstn_comm, firstn_firstn, Nat.min_l by lia. apply firstn_more.
    - match goal with H : _ = st' k |- _ => rewrite <- H in IH end. destruct (Nat.ltb_spec (length acc) (length (deflate b))) as [L|L].
      + right. destruct (D b (length acc) L) as (e & He). rewrite <- IH in He. rewrite He. exists e. reflexivity.
      + left. rewrite firstn_all2 in IH by exact L. subst acc. unfold parse. rewrite F0. reflexivity. }
  intros Ek. specialize (Inv _ R). cbn [fst] in Inv. rewrite Ek in Inv. exact Inv.
Qed.

(** ** Different objects, one file: neither need survive *)
Lemma write_first (c : bytes) : write_at [] 0 c = c.
Proof. unfold write_at. cbn [firstn repeat app length Nat.sub]. rewrite skipn_nil. apply app_nil_r. Qed.
Ltac where_is := repeat first [rewrite put_same | rewrite put_other by discriminate].
Lemma two_saves deflate inflate x y p f0 bx by' k : to_bytes x = Ok bx -> to_bytes y = Ok by' -> length (deflate bx) = length (deflate by') ->
  (1 <= k < length (deflate bx))%nat ->
  exists st f, runs deflate inflate [Save x p; Save y p] f0 (st, f) /\ st 0%nat = Saved Returned /\ st 1%nat = Saved Returned /\
    f p = Some (firstn k (deflate by') ++ skipn k (deflate bx)).
Proof.
  intros Ex Ey L Hk. set (cx := deflate bx) in *. set (cy := deflate by') in *. set (n := length cx) in *.
  assert (N0 : nth_error [Save x p; Save y p] 0 = Some (Save x p)) by reflexivity. assert (N1 : nth_error [Save x p; Save y p] 1 = Some (Save y p)) by reflexivity.
  pose proof (run_start deflate inflate [Save x p; Save y p] f0) as R.
  pose proof (run_step _ _ _ _ _ _ _ _ _ _ R N0 (j_bytes _ _ x p _ _ Ex)) as R1. fold cx in R1. clear R.
  eassert (R2 : runs _ _ _ _ _) by (eapply (run_step _ _ _ _ _ _ _ _ _ _ R1 N0); where_is; apply j_open). clear R1.
  eassert (R3 : runs _ _ _ _ _) by (eapply (run_step _ _ _ _ _ _ _ _ _ _ R2 N1); where_is; apply j_bytes, Ey). fold cy in R3. clear R2.
  eassert (R4 : runs _ _ _ _ _) by (eapply (run_step _ _ _ _ _ _ _ _ _ _ R3 N1); where_is; apply j_open). clear R3.
  eassert (R5 : runs _ _ _ _ _) by (eapply (run_step _ _ _ _ _ _ _ _ _ _ R4 N0); where_is; apply (j_write _ _ _ _ _ cx 0 k []); [apply set_same|lia|fold n; lia]). clear R4.
  eassert (R6 : runs _ _ _ _ _) by (eapply (run_step _ _ _ _ _ _ _ _ _ _ R5 N1); where_is; eapply (j_write _ _ _ _ _ cy 0 n); [apply set_same|lia|lia]). clear R5.
  eassert (R7 : runs _ _ _ _ _) by (eapply (run_step _ _ _ _ _ _ _ _ _ _ R6 N0); where_is; eapply (j_write _ _ _ _ _ cx (0 + k) (n - k)); [apply set_same|lia|fold n; lia]). clear R6.
  eassert (R8 : runs _ _ _ _ _) by (eapply (run_step _ _ _ _ _ _ _ _ _ _ R7 N0); where_is; apply j_close; fold n; lia). clear R7.
  eassert (R9 : runs _ _ _ _ _) by (eapply (run_step _ _ _ _ _ _ _ _ _ _ R8 N1); where_is; apply j_close; lia). clear R8.
  eexists. eexists. split; [exact R9|]. split; [where_is; reflexivity|]. split; [where_is; reflexivity|].
  rewrite set_same. f_equal. cbn [skipn Nat.add]. rewrite write_first.
  replace (firstn n cy) with cy by (symmetry; apply firstn_all2; lia).
  assert (W : write_at (firstn k cx) 0 cy = cy).
  { unfold write_at. cbn [firstn repeat app Nat.sub Nat.add]. rewrite skipn_all2; [apply app_nil_r|]. rewrite firstn_length. lia. }
  rewrite W. unfold write_at. replace (k - length cy)%nat with 0%nat by lia. cbn [repeat app].
  replace (firstn (n - k) (skipn k cx)) with (skipn k cx) by (symmetry; apply firstn_all2; rewrite skipn_length; fold n; lia).
  replace (skipn _ cy) with (@nil byte) by (symmetry; apply skipn_all2; rewrite skipn_length; fold n; lia). rewrite app_nil_r. reflexivity.
Qed.
Lemma load_during_save deflate inflate y p f0 cx by' k : f0 p = Some cx -> to_bytes y = Ok by' -> length cx = length (deflate by') -> (1 <= k < length cx)%nat ->
  exists st f, runs deflate inflate [Save y p; Load p] f0 (st, f) /\ st 0%nat = Saved Returned /\
    st 1%nat = Loaded (rbind (inflate (firstn k cx ++ skipn k (deflate by'))) from_bytes).
Proof.
  intros Ex Ey L Hk. set (cy := deflate by') in *. set (n := length cx) in *. assert (Hf : length (firstn k cx) = k) by (rewrite firstn_length; fold n; lia).
  assert (N0 : nth_error [Save y p; Load p] 0 = Some (Save y p)) by reflexivity. assert (N1 : nth_error [Save y p; Load p] 1 = Some (Load p)) by reflexivity.
  pose proof (run_start deflate inflate [Save y p; Load p] f0) as R.
  eassert (R1 : runs _ _ _ _ _) by (eapply (run_step _ _ _ _ _ _ _ _ _ _ R N1); eapply j_found, Ex). clear R.
  eassert (R2 : runs _ _ _ _ _) by (eapply (run_step _ _ _ _ _ _ _ _ _ _ R1 N1); where_is; eapply (j_read _ _ p f0 [] cx k Ex); [lia|cbn [length]; fold n; lia]). clear R1.
  eassert (R3 : runs _ _ _ _ _) by (eapply (run_step _ _ _ _ _ _ _ _ _ _ R2 N0); where_is; apply j_bytes, Ey). fold cy in R3. clear R2.
  eassert (R4 : runs _ _ _ _ _) by (eapply (run_step _ _ _ _ _ _ _ _ _ _ R3 N0); where_is; apply j_open). clear R3.
  eassert (R5 : runs _ _ _ _ _) by (eapply (run_step _ _ _ _ _ _ _ _ _ _ R4 N0); where_is; apply (j_write _ _ _ _ _ cy 0 n []); [apply set_same|lia|lia]). clear R4.
  eassert (R6 : runs _ _ _ _ _) by (eapply (run_step _ _ _ _ _ _ _ _ _ _ R5 N0); where_is; apply j_close; lia). clear R5.
  cbn [skipn length app] in R6. rewrite write_first in R6. assert (F : firstn n cy = cy) by (apply firstn_all2; lia). rewrite F in R6.
  eassert (R7 : runs _ _ _ _ _) by (eapply (run_step _ _ _ _ _ _ _ _ _ _ R6 N1); where_is; eapply (j_read _ _ p _ (firstn k cx) cy (n - k)); [apply set_same|lia|lia]). clear R6.
  eassert (R8 : runs _ _ _ _ _) by (eapply (run_step _ _ _ _ _ _ _ _ _ _ R7 N1); where_is; eapply (j_end _ _ p); [apply set_same|]; rewrite app_length, Hf, length_piece by lia; lia). clear R7.
  eexists. eexists. split; [exact R8|]. split; [where_is; reflexivity|]. where_is. do 4 f_equal.
  rewrite Hf. apply firstn_all2. rewrite skipn_length. lia.
Qed.
(** Three objects: [first_edit] differs from the sample at the beginning of the file, [second_edit] near its end, [both_edits] in both. *)
Definition first_edit : DatFile := with_DatFile_float_ptr_terrain_tables [1; 2] (sample VER_88).
Definition second_edit : DatFile := with_DatFile_time_slice 77 (sample VER_88).
Definition both_edits : DatFile := with_DatFile_float_ptr_terrain_tables [1; 2] second_edit.
Definition bytes_eqb (a b : bytes) : bool := if list_eq_dec Byte.byte_eq_dec a b then true else false.
Lemma bytes_eqb_eq a b : bytes_eqb a b = true -> a = b.
Proof. unfold bytes_eqb. destruct (list_eq_dec Byte.byte_eq_dec a b); [auto|discriminate]. Qed.
Lemma wf_loads x b : DatFile_wf x -> to_bytes x = Ok b -> from_bytes b = Ok x.
Proof. intros W E. destruct (proj1 (wf_iff_survives x) W) as (b' & E' & F). congruence. Qed.
Ltac edited :=
  unfold DatFile_layout;
  match goal with |- context [file_version ?x] => replace (file_version x) with (Some VER_88) by (vm_compute; reflexivity) end;
  apply cells_ok_guard; split; [reflexivity|]; apply cells_ok_app; split; [vm_compute; reflexivity|];
  unfold DatFile_body; cbn [first_edit second_edit both_edits with_DatFile_float_ptr_terrain_tables with_DatFile_time_slice sample sample_DatFile DatFile_float_ptr_terrain_tables DatFile_terrain_pass_graphic_pointers
    DatFile_terrain_restrictions DatFile_player_colours DatFile_sounds DatFile_effects DatFile_graphics DatFile_terrain_block
    DatFile_random_maps DatFile_unit_headers DatFile_civs DatFile_techs DatFile_tech_tree];
  repeat match goal with
  | |- cells_ok (TerrainBlock_layout _ _) => apply sample_TerrainBlock_ok
  | |- cells_ok (flat_map (Civ_layout _) _) => apply cells_ok_flat_map; repeat (apply Forall_cons; [apply sample_Civ_ok|]); apply Forall_nil
  | |- cells_ok (_ ++ _) => apply cells_ok_app; split
  end;
  vm_compute; reflexivity.
Lemma edits_wf : DatFile_wf first_edit /\ DatFile_wf second_edit /\ DatFile_wf both_edits /\ DatFile_wf (sample VER_88).
Proof.
  pose proof (sample_shape VER_88 ltac:(discriminate)) as S.
  split; [split; [edited|exact S]|]. split; [split; [edited|exact S]|]. split; [split; [edited|exact S]|].
  apply sample_wf. discriminate.
Qed.
Lemma edits_mix : exists b0 b1 b2 b12, to_bytes (sample VER_88) = Ok b0 /\ to_bytes first_edit = Ok b1 /\ to_bytes second_edit = Ok b2 /\ to_bytes both_edits = Ok b12 /\
  length (store b0) = length (store b12) /\ (1 <= Z.to_nat 1000 < length (store b0))%nat /\
  firstn (Z.to_nat 1000) (store b12) ++ skipn (Z.to_nat 1000) (store b0) = store b1 /\ firstn (Z.to_nat 1000) (store b0) ++ skipn (Z.to_nat 1000) (store b12) = store b2.
Proof.
  destruct edits_wf as (W1 & W2 & W12 & W0).
  destruct (to_bytes (sample VER_88)) as [b0|] eqn:E0; [|destruct (proj1 (wf_iff_survives _) W0) as (? & ? & _); congruence].
  destruct (to_bytes first_edit) as [b1|] eqn:E1; [|destruct (proj1 (wf_iff_survives _) W1) as (? & ? & _); congruence].
  destruct (to_bytes second_edit) as [b2|] eqn:E2; [|destruct (proj1 (wf_iff_survives _) W2) as (? & ? & _); congruence].
  destruct (to_bytes both_edits) as [b12|] eqn:E12; [|destruct (proj1 (wf_iff_survives _) W12) as (? & ? & _); congruence].
  exists b0, b1, b2, b12. split; [reflexivity|]. split; [reflexivity|]. split; [reflexivity|]. split; [reflexivity|].
  assert (H : match to_bytes (sample VER_88), to_bytes first_edit, to_bytes second_edit, to_bytes both_edits with
    | Ok b0, Ok b1, Ok b2, Ok b12 => (Z.of_nat (length (store b0)) =? Z.of_nat (length (store b12))) && (1000 <? Z.of_nat (length (store b0)))
        && bytes_eqb (firstn (Z.to_nat 1000) (store b12) ++ skipn (Z.to_nat 1000) (store b0)) (store b1)
        && bytes_eqb (firstn (Z.to_nat 1000) (store b0) ++ skipn (Z.to_nat 1000) (store b12)) (store b2)
    | _, _, _, _ => false end = true) by (vm_compute; reflexivity).
  rewrite E0, E1, E2, E12 in H. apply andb_true_iff in H as [H H4]. apply andb_true_iff in H as [H H3]. apply andb_true_iff in H as [H1 H2].
  split; [lia|]. split; [lia|]. split; apply bytes_eqb_eq; assumption.
Qed.
(** Two saves to one file, both return, and the file holds an object that nobody saved. *)
Theorem C43_torn_save : forall f0 p, exists x y z st f, runs store unstore [Save x p; Save y p] f0 (st, f) /\
  st 0%nat = Saved Returned /\ st 1%nat = Saved Returned /\ parse unstore f p = Ok z /\ z <> x /\ z <> y /\ DatFile_wf x /\ DatFile_wf y.
Proof.
  intros f0 p. destruct edits_wf as (W1 & W2 & W12 & W0). destruct edits_mix as (b0 & b1 & b2 & b12 & E0 & E1 & E2 & E12 & L & K & M1 & M2).
  destruct (two_saves store unstore _ _ p f0 _ _ _ E0 E12 L K) as (st & f & R & S0 & S1 & F).
  exists (sample VER_88), both_edits, first_edit, st, f. split; [exact R|]. split; [exact S0|]. split; [exact S1|].
  split; [unfold parse; rewrite F, M1, store_inverts; exact (wf_loads _ _ W1 E1)|].
  split; [intros H; apply (f_equal DatFile_float_ptr_terrain_tables) in H; discriminate H|].
  split; [intros H; apply (f_equal DatFile_time_slice) in H; discriminate H|]. auto.
Qed.
(** A load while the file is saved returns an object that was never in the file. *)
Theorem C43_torn_load : forall p, exists x y z f0 st f, parse unstore f0 p = Ok x /\ runs store unstore [Save y p; Load p] f0 (st, f) /\
  st 0%nat = Saved Returned /\ st 1%nat = Loaded (Ok z) /\ z <> x /\ z <> y /\ DatFile_wf x /\ DatFile_wf y.
Proof.
  intros p. destruct edits_wf as (W1 & W2 & W12 & W0). destruct edits_mix as (b0 & b1 & b2 & b12 & E0 & E1 & E2 & E12 & L & K & M1 & M2).
  set (f0 := set_file (fun _ => None) p (store b0)).
  destruct (load_during_save store unstore _ p f0 (store b0) _ _ (set_same _ _ _) E12 L K) as (st & f & R & S0 & S1).
  exists (sample VER_88), both_edits, second_edit, f0, st, f.
  split; [unfold parse, f0; rewrite set_same, store_inverts; exact (wf_loads _ _ W0 E0)|]. split; [exact R|]. split; [exact S0|].
  split; [rewrite S1, M2, store_inverts; cbn [rbind]; f_equal; exact (wf_loads _ _ W2 E2)|].
  split; [intros H; apply (f_equal DatFile_time_slice) in H; discriminate H|].
  split; [intros H; apply (f_equal DatFile_float_ptr_terrain_tables) in H; discriminate H|]. auto.
Qed.
(** Runs in which everything is done exist: one after the other. *)
Lemma save_runs deflate inflate jobs f0 st f i x p b : runs deflate inflate jobs f0 (st, f) -> nth_error jobs i = Some (Save x p) -> st i = Waiting -> to_bytes x = Ok b ->
  deflate b <> [] -> exists st', runs deflate inflate jobs f0 (st', set_file (set_file f p []) p (deflate b)) /\ st' i = Saved Returned /\ forall j, j <> i -> st' j = st j.
Proof.
  intros R N W E NE. assert (L : (1 <= length (deflate b))%nat) by (destruct (deflate b); [congruence|cbn [length]; lia]).
  eassert (R1 : runs _ _ _ _ _) by (eapply (run_step _ _ _ _ _ _ _ _ _ _ R N); rewrite W; apply j_bytes, E).
  eassert (R2 : runs _ _ _ _ _) by (eapply (run_step _ _ _ _ _ _ _ _ _ _ R1 N); rewrite put_same; apply j_open).
  eassert (R3 : runs _ _ _ _ _) by (eapply (run_step _ _ _ _ _ _ _ _ _ _ R2 N); rewrite put_same; apply (j_write _ _ _ _ _ (deflate b) 0 (length (deflate b)) []); [apply set_same|lia|lia]).
  eassert (R4 : runs _ _ _ _ _) by (eapply (run_step _ _ _ _ _ _ _ _ _ _ R3 N); rewrite put_same; apply j_close; lia).
  eexists. split; [|split].
  - cbn [skipn] in R4. rewrite write_first, firstn_all in R4. exact R4.
  - apply put_same.
  - intros j Hj. rewrite !put_other by exact Hj. reflexivity.
Qed.
Example C43_case : forall v w p q f0, v <> UNDEFINED -> w <> UNDEFINED -> p <> q -> exists st f,
  runs store unstore [Save (sample v) p; Save (sample w) q; Load p] f0 (st, f) /\ st 0%nat = Saved Returned /\ st 1%nat = Saved Returned /\
  parse unstore f p = Ok (sample v) /\ parse unstore f q = Ok (sample w).
Proof.
  intros v w p q f0 Hv Hw Hpq. destruct (dat_round_trip_bytes (sample v) (sample_wf v Hv)) as (b & E & _). destruct (dat_round_trip_bytes (sample w) (sample_wf w Hw)) as (c & Ew & _).
  pose proof (run_start store unstore [Save (sample v) p; Save (sample w) q; Load p] f0) as R.
  destruct (save_runs _ _ _ _ _ _ 0%nat _ _ _ R eq_refl eq_refl E (store_nonempty b)) as (st & R1 & S0 & Oth).
  destruct (save_runs _ _ _ _ _ _ 1%nat _ _ _ R1 eq_refl ltac:(rewrite Oth by discriminate; reflexivity) Ew (store_nonempty c)) as (st' & R2 & S1 & Oth').
  assert (S0' : st' 0%nat = Saved Returned) by (rewrite Oth' by discriminate; exact S0).
  eexists. eexists. split; [exact R2|]. split; [exact S0'|]. split; [exact S1|]. split.
  - refine (C43_saved store unstore store_inverts _ _ _ _ 0%nat _ _ R2 eq_refl _ (sample_wf v Hv) S0').
    intros [|[|[|i]]] j b' Hi Hj (y & -> & _); cbn in Hj; try congruence. destruct i; discriminate.
  - refine (C43_saved store unstore store_inverts _ _ _ _ 1%nat _ _ R2 eq_refl _ (sample_wf w Hw) S1).
    intros [|[|[|i]]] j b' Hi Hj (y & -> & _); cbn in Hj; try congruence. destruct i; discriminate.
Qed.
Definition all_of_this_file := (C43_untouched, C43_load, C43_same, C43_alone, C43_saved, C43_resave, C43_torn_save, C43_torn_load, C43_case).
Print Assumptions all_of_this_file.
