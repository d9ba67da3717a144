(** * C54: [DatFile.parse], [DatFile.save] and the programs of the README, as written, from the files
    they find to the files they leave; with crashes and failures of the operating system at any
    moment. *)
From Verif Require Import Base PyInt PyFloat PyStr PyStruct DataTypes Versions Common Py Source PyRep PyPure PyPureSim PyW PyWE Deep PyWC PyWS PyWD.
From Verif Require Import M_DatFile Spec Shape Update Edit Sample Props_Dat Props_Source PyR PyRE PyTree PyLoad Props_Load Props_Readme Props_Programs.
From Verif Require Import Theory Props_Convert FS Props_FS World.
From Coq Require Import String Ascii Lia.
Open Scope Z_scope.
Local Open Scope list_scope.

(** ** What the texts ask for *)
Lemma parse_act inflate deflate n h p : exists k, wcall inflate deflate (S (S n)) (PMeth (PClass "DatFile") "parse") [PStr p] [] h = ReadFile p k /\
  forall c, k c = match inflate c with Ok data => Stop (user_load (S n) h data (PBytes c) (PStr p)) | Err e => Stop (Raise (Std e)) end.
Proof.
  eexists. split; [reflexivity|]. intros c. cbn beta.
  transitivity (abind (abind (abind (Stop (mbind (mres (inflate c)) (fun d => mret (PBytes d)) h)) (fun v => wret (("data"%string, v) :: [("content", PBytes c); ("cls", PClass "DatFile"); ("input_file", PStr p)]%string, None)))
     (fun (r : env * option val) => match snd r with Some _ => wret r | None => lift (Py.block source (call source (S n)) "datfile" (skipn 2 (f_body src_DatFile_parse)) (fst r)) end))
     (fun (r : env * option val) => wret match snd r with Some v => v | None => PNone end)).
  { reflexivity. }
  destruct (inflate c) as [d|e]; [|reflexivity]. unfold user_load, run, mbind. cbn [mres abind mret mbind wret lift snd fst]. unfold mret at 1. cbn [abind].
  unfold wret, lift, mret. cbn [snd fst abind]. match goal with |- context [Py.block ?a ?b ?c ?d ?e ?f] => destruct (Py.block a b c d e f) as [[[en' [w|]] h']|er] end; reflexivity.
Qed.
Lemma user_parse_act inflate deflate n h p :
  user_parse inflate deflate n h p = wcall inflate deflate n (PMeth (PClass "DatFile") "parse") [PStr p] [] h.
Proof. reflexivity. Qed.
Lemma wcall_save inflate deflate n h l fs pos kw : nth_error h l = Some (OInst "DatFile" fs) ->
  wcall inflate deflate (S n) (PMeth (PRef l) "save") pos kw h = wapply n (wcall inflate deflate n) src_DatFile_save (PRef l :: pos) kw h.
Proof. intros Q. cbn [wcall]. unfold wbind, lift, get_obj. rewrite Q. reflexivity. Qed.
Lemma wattr_save n h l fs : nth_error h l = Some (OInst "DatFile" fs) -> wattr n (PRef l) "save" h = Stop (Ret (PMeth (PRef l) "save", h)).
Proof. intros Q. unfold wattr, wbind, lift, get_obj. rewrite Q. reflexivity. Qed.
Lemma save_act inflate deflate n h l fs p : nth_error h l = Some (OInst "DatFile" fs) ->
  match user_save_file (S n) h (PRef l) with
  | Ret (PBytes b, h') => wcall inflate deflate (S (S n)) (PMeth (PRef l) "save") [PStr p] [] h = WriteFile p (deflate b) (Stop (Ret (PNone, h')))
  | Ret _ => True
  | Raise e => wcall inflate deflate (S (S n)) (PMeth (PRef l) "save") [PStr p] [] h = Stop (Raise e)
  end.
Proof.
  intros Q. rewrite (wcall_save _ _ _ _ _ _ _ _ Q). set (en := [("self", PRef l); ("target_file", PStr p)]%string).
  assert (A : wapply (S n) (wcall inflate deflate (S n)) src_DatFile_save [PRef l; PStr p] [] h =
    abind (abind (Stop (mbind (fun h => user_save_file (S n) h (PRef l)) (fun v => mret (("uncompressed"%string, v) :: en, None)) h))
      (fun (r : env * option val) => match snd r with Some _ => wret r | None => wblock (S n) (wcall inflate deflate (S n)) "datfile" (skipn 1 (f_body src_DatFile_save)) (fst r) end))
      (fun (r : env * option val) => wret match snd r with Some v => v | None => PNone end)) by reflexivity.
  rewrite A. clear A. unfold mbind. destruct (user_save_file (S n) h (PRef l)) as [[[| | | | |b| | | | | | |] h']|e]; try exact I; reflexivity.
Qed.
Lemma user_save_to_act inflate deflate n h l fs p : nth_error h l = Some (OInst "DatFile" fs) ->
  user_save_to inflate deflate n h (PRef l) p = wcall inflate deflate n (PMeth (PRef l) "save") [PStr p] [] h.
Proof.
  intros Q. transitivity (abind (wattr n (PRef l) "save" h) (fun f => wcall inflate deflate n f [PStr p] [])); [reflexivity|].
  rewrite (wattr_save _ _ _ _ Q). reflexivity.
Qed.

(** ** What the operating system makes of them *)
Lemma reach_stop {A} (r : outcome (A * heap)) f o s : wreach (Stop r) f o s -> s = mkWorld (Running (Stop r)) f o.
Proof. intros R. induction R as [|s s' R IH S]; [reflexivity|]. subst s. inversion S. Qed.
Lemma reach_read {A} p (k : bytes -> act A) f o s : wreach (ReadFile p k) f o s ->
  s = mkWorld (Running (ReadFile p k)) f o \/ s = mkWorld OsError f o \/
  (f p = None /\ s = mkWorld (Running (Stop (Raise (Std FileNotFoundError)))) f o) \/ exists c, f p = Some c /\ wreach (k c) f o s.
Proof.
  intros R. induction R as [|s s' R IH S]; [left; reflexivity|]. destruct IH as [->|[->|[(N & ->)|(c & C & IH)]]].
  - inversion S; subst; [right; right; right; exists c; split; [assumption|apply wr_start]|right; right; left; split; [assumption|reflexivity]|right; left; reflexivity].
  - inversion S.
  - inversion S.
  - right. right. right. exists c. split; [exact C|]. eapply wr_step; eassumption.
Qed.
(** Writing [b] to [p] and then [t]. *)
Lemma reach_write {A} p b (t : act A) f o s : wreach (WriteFile p b t) f o s ->
  s = mkWorld (Running (WriteFile p b t)) f o \/ s = mkWorld OsError f o \/
  (exists d r, b = d ++ r /\ (w_pc s = Writing p r t \/ w_pc s = OsError) /\ same_but p f (w_fs s) /\ w_fs s p = Some d /\ w_out s = o) \/
  (exists f', same_but p f f' /\ f' p = Some b /\ wreach t f' o s).
Proof.
  intros R. induction R as [|s s' R IH S]; [left; reflexivity|]. destruct IH as [->|[->|[(d & r & B & P & O & C & E)|(f' & O & C & IH)]]].
  - inversion S; subst; [|right; left; reflexivity]. right. right. left. exists [], b. cbn [w_pc w_fs w_out]. split; [reflexivity|]. split; [left; reflexivity|].
    split; [intros q N; apply set_other, N|]. split; [apply set_same|reflexivity].
  - inversion S.
  - destruct s as [c g out]. cbn [w_pc w_fs w_out] in *. destruct P as [->| ->]; [|inversion S]. inversion S; subst.
    + right. right. left. match goal with H : g p = Some ?x |- _ => assert (x = d) by congruence; subst x end. match goal with |- context [skipn ?m r] => exists (d ++ firstn m r), (skipn m r) end. cbn [w_pc w_fs w_out]. split; [rewrite <- app_assoc, firstn_skipn; reflexivity|].
      split; [left; reflexivity|]. split; [intros q N; rewrite set_other by exact N; apply O, N|]. split; [apply set_same|reflexivity].
    + right. right. left. exists d, r. cbn [w_pc w_fs w_out]. auto.
    + right. right. right. exists g. split; [exact O|]. split; [rewrite app_nil_r; exact C|apply wr_start].
  - right. right. right. exists f'. split; [exact O|]. split; [exact C|]. eapply wr_step; eassumption.
Qed.
Lemma write_out {A} p (t : act A) rest : forall f o d t0 f0, wreach t0 f0 o (mkWorld (Writing p rest t) f o) -> f p = Some d ->
  exists f', wreach t0 f0 o (mkWorld (Running t) f' o) /\ f' p = Some (d ++ rest) /\ same_but p f f'.
Proof.
  intros f o d t0 f0 R C. destruct rest as [|x rest].
  - exists f. split; [eapply wr_step; [exact R|apply w_close]|]. split; [rewrite app_nil_r; exact C|intros q _; reflexivity].
  - exists (set_file f p (d ++ (x :: rest))). split; [|split; [apply set_same|intros q N; apply set_other, N]].
    assert (R' : wreach t0 f0 o (mkWorld (Writing p [] t) (set_file f p (d ++ x :: rest)) o)).
    { eapply wr_step; [exact R|]. pose proof (w_write p (x :: rest) t f o d (List.length (x :: rest)) C ltac:(cbn [List.length]; lia)) as S.
      rewrite skipn_all, firstn_all in S. exact S. }
    eapply wr_step; [exact R'|apply w_close].
Qed.

(** ** [DatFile.parse(p)] *)
(** No file changes; it returns new objects with the contents FS.v says, or raises what FS.v says. *)
Theorem C54_parse : forall inflate deflate n h f o p s, (19 <= n)%nat -> wreach (user_parse inflate deflate n h p) f o s ->
  w_fs s = f /\ w_out s = o /\
  match w_pc s with
  | Running (Stop (Ret (v, h'))) => exists x, parse inflate f p = Ok x /\ later h h' /\ fresh_tree h h' (DatFile_deep x) v
  | Running (Stop (Raise e)) => exists e', e = Std e' /\ parse inflate f p = Err e'
  | Running (ReadFile q _) => q = p
  | OsError => True
  | _ => False
  end.
Proof.
  intros inflate deflate n h f o p s N R. rewrite user_parse_act in R. destruct n as [|[|n]]; [lia..|]. destruct (parse_act inflate deflate n h p) as (k & E & K). rewrite E in R.
  destruct (reach_read _ _ _ _ _ R) as [->|[->|[(M & ->)|(c & C & R')]]]; cbn [w_fs w_out w_pc].
  - auto.
  - auto.
  - split; [reflexivity|]. split; [reflexivity|]. exists FileNotFoundError. split; [reflexivity|]. unfold parse. rewrite M. reflexivity.
  - rewrite K in R'. unfold parse. rewrite C. destruct (inflate c) as [data|e]; cbn [rbind].
    + apply reach_stop in R' as ->. cbn [w_fs w_out w_pc]. split; [reflexivity|]. split; [reflexivity|].
      pose proof (C49_DatFile (S n) h data (PBytes c) (PStr p) ltac:(lia)) as H. destruct (from_bytes data) as [x|e].
      * destruct H as (v & h' & -> & L & F). exists x. auto.
      * rewrite H. exists e. auto.
    + apply reach_stop in R' as ->. cbn [w_fs w_out w_pc]. split; [reflexivity|]. split; [reflexivity|]. exists e. auto.
Qed.
(** Unless the operating system fails it ends. *)
Theorem C54_parse_ends : forall inflate deflate n h f o p, (19 <= n)%nat ->
  exists r, wreach (user_parse inflate deflate n h p) f o (mkWorld (Running (Stop r)) f o).
Proof.
  intros inflate deflate n h f o p N. rewrite user_parse_act. destruct n as [|[|n]]; [lia..|]. destruct (parse_act inflate deflate n h p) as (k & E & K). rewrite E.
  destruct (f p) as [c|] eqn:C.
  - specialize (K c). assert (X : exists r, k c = Stop r) by (rewrite K; destruct (inflate c); eexists; reflexivity). destruct X as [r X]. exists r. rewrite <- X.
    eapply wr_step; [apply wr_start|apply w_read, C].
  - eexists. eapply wr_step; [apply wr_start|apply w_missing, C].
Qed.

(** ** [dat.save(p)] *)
(** The moments of a run, as FS.v names them. *)
Definition same_moment (p : path) (ph : phase) (c : pc val) : Prop :=
  match ph, c with
  | Open b, Running (WriteFile q b' _) => q = p /\ b' = b
  | Write r, Writing q r' _ => q = p /\ r' = r
  | End Returned, Running (Stop (Ret (PNone, _))) => True
  | End (Raised e), Running (Stop (Raise e')) => e' = Std e
  | End OsFailed, OsError => True
  | _, _ => False
  end.
Lemma save_shape inflate deflate n h x v p : (21 <= n)%nat -> stands false h (DatFile_deep x) v ->
  match to_bytes x with
  | Ok b => exists h', later h h' /\ user_save_to inflate deflate n h v p = WriteFile p (deflate b) (Stop (Ret (PNone, h')))
  | Err e => user_save_to inflate deflate n h v p = Stop (Raise (Std e))
  end.
Proof.
  intros N S. destruct (C46_DatFile (pred n) h x v ltac:(lia) S) as [A _]. unfold DatFile_deep in S. apply stands_obj in S as (q & vs & -> & Q & _).
  rewrite (user_save_to_act _ _ _ _ _ _ _ Q). destruct n as [|[|n]]; [lia..|]. cbn [pred] in A. pose proof (save_act inflate deflate n h q vs p Q) as B. unfold agrees in A. fold to_bytes in A. unfold to_bytes.
  destruct (DatFile_to_bytes x UNDEFINED) as [b|e].
  - destruct A as (h' & A & L). rewrite A in B. exists h'. split; [exact L|exact B].
  - rewrite A in B. exact B.
Qed.
(** Everything the text of [save] does is a move of FS.v ... *)
Theorem C54_save : forall inflate deflate n h x v p f o s, (21 <= n)%nat -> stands false h (DatFile_deep x) v ->
  wreach (user_save_to inflate deflate n h v p) f o s ->
  w_out s = o /\ (exists ph, reach deflate x p f (ph, w_fs s) /\ same_moment p ph (w_pc s)) /\
  match w_pc s with Running (Stop (Ret (_, h'))) => later h h' | _ => True end.
Proof.
  intros inflate deflate n h x v p f o s N S R. pose proof (save_shape inflate deflate n h x v p N S) as A. destruct (to_bytes x) as [b|e] eqn:TB.
  - destruct A as (h' & L & A). rewrite A in R.
    assert (I : w_out s = o /\ ((w_pc s = Running (WriteFile p (deflate b) (Stop (Ret (PNone, h')))) /\ reach deflate x p f (Open (deflate b), w_fs s)) \/
      (exists r, w_pc s = Writing p r (Stop (Ret (PNone, h'))) /\ reach deflate x p f (Write r, w_fs s)) \/
      (w_pc s = OsError /\ reach deflate x p f (End OsFailed, w_fs s)) \/
      (w_pc s = Running (Stop (Ret (PNone, h'))) /\ reach deflate x p f (End Returned, w_fs s)))).
    { induction R as [|s s' R IH T].
      - cbn [w_out w_pc w_fs]. split; [reflexivity|]. left. split; [reflexivity|]. eapply r_step; [apply r_start|]. apply s_bytes, TB.
      - destruct s as [c g out]. cbn [w_out w_pc w_fs] in *. destruct IH as (-> & [(-> & Q)|[(r & -> & Q)|[(-> & Q)|(-> & Q)]]]); inversion T; subst; cbn [w_out w_pc w_fs]; (split; [reflexivity|]).
        + right. left. eexists. split; [reflexivity|]. eapply r_step; [exact Q|apply s_open].
        + right. right. left. split; [reflexivity|]. eapply r_step; [exact Q|apply s_open_fails].
        + right. left. eexists. split; [reflexivity|]. eapply r_step; [exact Q|]. apply s_write; assumption.
        + right. right. left. split; [reflexivity|]. eapply r_step; [exact Q|apply s_write_fails].
        + right. right. right. split; [reflexivity|]. eapply r_step; [exact Q|apply s_close]. }
    destruct I as (O & [(E & Q)|[(r & E & Q)|[(E & Q)|(E & Q)]]]); (split; [exact O|]); rewrite E; (split; [eexists; split; [exact Q|]; cbn [same_moment]; auto|auto]).
  - rewrite A in R. apply reach_stop in R as ->. cbn [w_out w_pc w_fs]. split; [reflexivity|]. split; [|exact I]. exists (End (Raised e)). split; [|reflexivity].
    eapply r_step; [apply r_start|]. apply s_raise, TB.
Qed.
(** ... and every move of FS.v can happen; so C27-C29 speak of the text. *)
Theorem C54_save_back : forall inflate deflate n h x v p f o ph g, (21 <= n)%nat -> stands false h (DatFile_deep x) v ->
  reach deflate x p f (ph, g) -> ph = Begin \/ exists s, wreach (user_save_to inflate deflate n h v p) f o s /\ w_fs s = g /\ same_moment p ph (w_pc s).
Proof.
  intros inflate deflate n h x v p f o ph g N S R. pose proof (save_shape inflate deflate n h x v p N S) as A.
  assert (I : forall s : state, reach deflate x p f s -> match fst s with
    | Begin => snd s = f
    | Open b => exists h', wreach (user_save_to inflate deflate n h v p) f o (mkWorld (Running (WriteFile p b (Stop (Ret (PNone, h'))))) (snd s) o)
    | Write r => exists h', wreach (user_save_to inflate deflate n h v p) f o (mkWorld (Writing p r (Stop (Ret (PNone, h')))) (snd s) o)
    | End Returned => exists h', wreach (user_save_to inflate deflate n h v p) f o (mkWorld (Running (Stop (Ret (PNone, h')))) (snd s) o)
    | End (Raised e) => wreach (user_save_to inflate deflate n h v p) f o (mkWorld (Running (Stop (Raise (Std e)))) (snd s) o)
    | End OsFailed => wreach (user_save_to inflate deflate n h v p) f o (mkWorld OsError (snd s) o)
    end).
  { intros s Q. induction Q as [|s t Q IH T]; [reflexivity|]. destruct T as [f1 e TB|f1 b TB|f1 c|f1 c|f1 rest cur k C K|f1 rest|f1]; cbn [fst snd] in *.
    - rewrite TB in A. subst f1. rewrite A. apply wr_start.
    - rewrite TB in A. destruct A as (h' & _ & A). exists h'. subst f1. rewrite A. apply wr_start.
    - destruct IH as (h' & IH). exists h'. eapply wr_step; [exact IH|apply w_open].
    - destruct IH as (h' & IH). eapply wr_step; [exact IH|apply w_open_fails].
    - destruct IH as (h' & IH). exists h'. eapply wr_step; [exact IH|apply w_write; assumption].
    - destruct IH as (h' & IH). eapply wr_step; [exact IH|apply w_write_fails].
    - destruct IH as (h' & IH). exists h'. eapply wr_step; [exact IH|apply w_close]. }
  specialize (I _ R). cbn [fst snd] in I. destruct ph as [|b|r|[|e|]]; [left; reflexivity|right..].
  - destruct I as (h' & I). eexists. split; [exact I|]. split; [reflexivity|]. cbn [w_pc same_moment]. auto.
  - destruct I as (h' & I). eexists. split; [exact I|]. split; [reflexivity|]. cbn [w_pc same_moment]. auto.
  - destruct I as (h' & I). eexists. split; [exact I|]. split; [reflexivity|]. exact Logic.I.
  - eexists. split; [exact I|]. split; reflexivity.
  - eexists. split; [exact I|]. split; reflexivity.
Qed.
(** In particular: whenever the machine stops, only the target may differ, and it is what it was or a
    beginning of the new file; if the object cannot be saved, nothing was touched. *)
Theorem C54_save_crash : forall inflate deflate n h x v p f o s, (21 <= n)%nat -> stands false h (DatFile_deep x) v ->
  wreach (user_save_to inflate deflate n h v p) f o s ->
  same_but p f (w_fs s) /\
  (w_fs s p = f p \/ exists b k, to_bytes x = Ok b /\ w_fs s p = Some (firstn k (deflate b))).
Proof.
  intros inflate deflate n h x v p f o s N S R. destruct (C54_save _ _ _ _ _ _ _ _ _ _ N S R) as (_ & (ph & Q & _) & _). apply (C29_crash_states _ _ _ _ _ Q).
Qed.
Theorem C54_save_fails : forall inflate deflate n h x v p f o s e, (21 <= n)%nat -> stands false h (DatFile_deep x) v -> to_bytes x = Err e ->
  wreach (user_save_to inflate deflate n h v p) f o s -> s = mkWorld (Running (Stop (Raise (Std e)))) f o.
Proof.
  intros inflate deflate n h x v p f o s e N S TB R. pose proof (save_shape inflate deflate n h x v p N S) as A. rewrite TB in A. rewrite A in R. apply reach_stop, R.
Qed.
(** After it has returned the file loads to the same contents. *)
Theorem C54_saved : forall inflate deflate, inverts inflate deflate -> forall n h x v p f o s w h', (21 <= n)%nat ->
  DatFile_wf x -> stands false h (DatFile_deep x) v -> wreach (user_save_to inflate deflate n h v p) f o s -> w_pc s = Running (Stop (Ret (w, h'))) ->
  w = PNone /\ parse inflate (w_fs s) p = Ok x /\ same_but p f (w_fs s) /\ later h h'.
Proof.
  intros inflate deflate Z n h x v p f o s w h' N WF S R E. destruct (C54_save _ _ _ _ _ _ _ _ _ _ N S R) as (_ & (ph & Q & M) & L). rewrite E in M, L.
  destruct ph as [| | |[|e|]]; cbn [same_moment] in M; try contradiction. destruct w; try contradiction. split; [reflexivity|].
  destruct (C27_save_parse _ _ Z _ _ _ _ WF Q) as [P O]. auto.
Qed.

(** ** The programs of README.md *)
Definition source_file : path := lit "path/to/empires2_x2_p1.dat".
Definition target_file : path := lit "path/to/modded/empires2_x2_p1.dat".
Definition edited (inflate : bytes -> res bytes) (f : fs) (change : DatFile -> res DatFile) : res DatFile := rbind (parse inflate f source_file) change.

Lemma run_one n s en h : run n "__main__" [s] en h =
  match exec source (call source n) "__main__" s en h with
  | Ret ((_, Some w), h') => Ret (w, h')
  | Ret ((_, None), h') => Ret (PNone, h')
  | Raise e => Raise e
  end.
Proof.
  unfold run. rewrite block_cons. unfold mbind. destruct (exec source (call source n) "__main__" s en h) as [[[en' [w|]] h']|e]; reflexivity.
Qed.
(** [data = DatFile.parse(...)], one statement, [data.save(...)] *)
(** What a program may do that loads [source_file], makes [change] and saves to [target_file]: the
    target is the only file that changes, and only after the source was loaded and changed; it holds
    what it held, or a beginning of the new file, or all of it once the program has ended.  If the
    program raises, no file has changed. *)
Definition from_to (inflate : bytes -> res bytes) (deflate : bytes -> bytes) (change : DatFile -> res DatFile) (n : nat) (h : heap) (prog : list stmt) : Prop :=
  forall f o s, wreach (user_program inflate deflate n h prog) f o s ->
  w_out s = o /\ same_but target_file f (w_fs s) /\
  let new b := exists y, edited inflate f change = Ok y /\ to_bytes y = Ok b /\ from_bytes b = Ok y in
  match w_pc s with
  | Running (ReadFile p _) => p = source_file /\ w_fs s = f
  | Running (WriteFile p c _) => p = target_file /\ w_fs s = f /\ exists b, new b /\ c = deflate b
  | Writing p rest _ => p = target_file /\ exists b d, new b /\ deflate b = d ++ rest /\ w_fs s target_file = Some d
  | Running (Stop (Ret (v, h'))) => v = PNone /\ later h h' /\ exists b, new b /\ w_fs s target_file = Some (deflate b)
  | Running (Stop (Raise e)) => w_fs s = f /\ exists e', e = Std e' /\ edited inflate f change = Err e'
  | OsError => w_fs s = f \/ exists b k, new b /\ w_fs s target_file = Some (firstn k (deflate b))
  | Running (Print _ _) => False
  end.
(** It ends, unless the operating system fails. *)
Definition ends (inflate : bytes -> res bytes) (deflate : bytes -> bytes) (n : nat) (h : heap) (prog : list stmt) : Prop :=
  forall f o, exists s r, wreach (user_program inflate deflate n h prog) f o s /\ w_pc s = Running (Stop r).
Section Program.
Variables (inflate : bytes -> res bytes) (deflate : bytes -> bytes) (change : DatFile -> res DatFile) (s : stmt).
Definition three : list stmt :=
  [SAssign "data" (ECall (EAttr (EName "DatFile") "parse") [EConst (KStr "path/to/empires2_x2_p1.dat")]); s;
   SExpr (ECall (EAttr (EName "data") "save") [EConst (KStr "path/to/modded/empires2_x2_p1.dat")])].
Hypothesis quiet : io_free_stmt s = true.
Hypothesis runs : forall n h0 h x v, (1 <= n)%nat -> fresh_tree h0 h (DatFile_deep x) v ->
  match change x with
  | Ok y => exists en' h', exec source (call source n) "__main__" s [("data"%string, v)] h = Ret ((en', None), h') /\ assoc "data"%string en' = Some v /\
      fresh_tree h0 h' (DatFile_deep y) v /\ (forall i, (i < List.length h0)%nat -> nth_error h' i = nth_error h i)
  | Err e => exec source (call source n) "__main__" s [("data"%string, v)] h = Raise (Std e)
  end.
Hypothesis sound : forall x y, DatFile_wf x -> change x = Ok y -> exists b, to_bytes y = Ok b /\ from_bytes b = Ok y.
Lemma three_act n h : exists k, user_program inflate deflate (S (S n)) h three = ReadFile source_file k /\ forall c,
  k c = match inflate c with
        | Err e => Stop (Raise (Std e))
        | Ok data => match user_load (S n) h data (PBytes c) (PStr source_file) with
                     | Raise e => Stop (Raise e)
                     | Ret (v, h1) => match exec source (call source (S (S n))) "__main__" s [("data"%string, v)] h1 with
                                      | Raise e => Stop (Raise e)
                                      | Ret ((en', Some w), h2) => Stop (Ret (w, h2))
                                      | Ret ((en', None), h2) =>
                                          abind (wblock (S (S n)) (wcall inflate deflate (S (S n))) "__main__" (skipn 2 three) en' h2)
                                            (fun r => wret match snd r with Some v => v | None => PNone end)
                                      end
                     end
        end.
Proof.
  destruct (parse_act inflate deflate n h source_file) as (k & E & K).
  assert (P : user_program inflate deflate (S (S n)) h three =
    abind (abind (abind (wcall inflate deflate (S (S n)) (PMeth (PClass "DatFile") "parse") [PStr source_file] [] h) (fun v => wret ([("data"%string, v)], None)))
      (fun (r : env * option val) => match snd r with Some _ => wret r | None => wblock (S (S n)) (wcall inflate deflate (S (S n))) "__main__" (skipn 1 three) (fst r) end))
      (fun (r : env * option val) => wret match snd r with Some v => v | None => PNone end)).
  { reflexivity. }
  rewrite P, E. eexists. split; [reflexivity|]. intros c. cbn beta. rewrite K. destruct (inflate c) as [data|e]; [|reflexivity].
  destruct (user_load (S n) h data (PBytes c) (PStr source_file)) as [[v h1]|e]; [|reflexivity].
  cbn [abind]. unfold wret at 1, lift, mret. cbn [abind snd fst].
  assert (B : wblock (S (S n)) (wcall inflate deflate (S (S n))) "__main__" (skipn 1 three) [("data"%string, v)] h1 =
    abind (Stop (exec source (call source (S (S n))) "__main__" s [("data"%string, v)] h1))
      (fun (r : env * option val) => match snd r with Some _ => wret r | None => wblock (S (S n)) (wcall inflate deflate (S (S n))) "__main__" (skipn 2 three) (fst r) end)).
  { unfold three. cbn [skipn]. cbn [wblock]. replace (forallb io_free_stmt [s; _]) with false by (cbn [forallb]; rewrite quiet; reflexivity).
    rewrite quiet. reflexivity. }
  rewrite B. destruct (exec source (call source (S (S n))) "__main__" s [("data"%string, v)] h1) as [[[en' [w|]] h2]|e]; reflexivity.
Qed.
Lemma save_last n en l fs h : assoc "data"%string en = Some (PRef l) -> nth_error h l = Some (OInst "DatFile" fs) ->
  wblock n (wcall inflate deflate n) "__main__" (skipn 2 three) en h =
  abind (abind (wcall inflate deflate n (PMeth (PRef l) "save") [PStr target_file] [] h) (fun _ => wret (en, None))) (fun (r : env * option val) => match snd r with Some _ => wret r | None => wret (fst r, None) end).
Proof.
  intros A Q. unfold three. cbn [skipn].
  transitivity (abind (abind (abind (abind (Stop (name source "__main__" en "data" h)) (fun v => wattr n v "save")) (fun f => wcall inflate deflate n f [PStr target_file] [])) (fun _ => wret (en, None))) (fun (r : env * option val) => match snd r with Some _ => wret r | None => wret (fst r, None) end)).
  { reflexivity. }
  unfold name. rewrite A. unfold mret. cbn [abind]. rewrite (wattr_save _ _ _ _ Q). cbn [abind]. reflexivity.
Qed.
Lemma three_shape n h : (21 <= n)%nat -> exists k, user_program inflate deflate n h three = ReadFile source_file k /\ forall c,
  match rbind (inflate c) from_bytes with
  | Err e => k c = Stop (Raise (Std e))
  | Ok x => match change x with
            | Err e => k c = Stop (Raise (Std e))
            | Ok y => exists b h', to_bytes y = Ok b /\ from_bytes b = Ok y /\ later h h' /\ k c = WriteFile target_file (deflate b) (Stop (Ret (PNone, h')))
            end
  end.
Proof.
  intros N. destruct n as [|[|n]]; [lia..|]. destruct (three_act n h) as (k & E & K). exists k. split; [exact E|]. intros c. specialize (K c).
  destruct (inflate c) as [data|e]; cbn [rbind]; [|exact K].
  pose proof (C49_DatFile (S n) h data (PBytes c) (PStr source_file) ltac:(lia)) as H. destruct (from_bytes data) as [x|e] eqn:FB; [|rewrite H in K; exact K].
  destruct H as (v & h1 & EL & L1 & FT). rewrite EL in K. pose proof (runs (S (S n)) h h1 x v ltac:(lia) FT) as RN. destruct (change x) as [y|e] eqn:CH; [|rewrite RN in K; exact K].
  destruct RN as (en' & h2 & EX & D & FT2 & SAME). rewrite EX in K. destruct (sound x y (from_bytes_wf _ _ FB) CH) as (b & TB & FB2).
  destruct FT2 as (fp & O & ND & RG). pose proof (own_stands true _ _ _ _ O) as ST. unfold DatFile_deep in O. apply own_obj in O as (q & vs & fps & -> & Q & _ & _).
  rewrite (save_last _ _ _ _ _ D Q) in K. pose proof (save_act inflate deflate n h2 q vs target_file Q) as SA.
  destruct (C48_DatFile (S n) h2 y (PRef q) b ltac:(lia) ST TB) as (h3 & E3 & L3). rewrite E3 in SA. rewrite SA in K. exists b, h3. split; [exact TB|]. split; [exact FB2|]. split; [|exact K].
  intros i o I. apply L3. rewrite SAME by apply (nth_lt _ _ _ I). apply L1, I.
Qed.
Lemma three_from_to n h : (21 <= n)%nat -> from_to inflate deflate change n h three.
Proof.
  intros N f o s0 R. destruct (three_shape n h N) as (k & E & K). rewrite E in R.
  assert (SAME : same_but target_file f f) by (intros q _; reflexivity).
  destruct (reach_read _ _ _ _ _ R) as [->|[->|[(M & ->)|(c & C & R')]]]; cbn [w_fs w_out w_pc].
  - auto.
  - auto.
  - split; [reflexivity|]. split; [exact SAME|]. split; [reflexivity|]. exists FileNotFoundError. split; [reflexivity|]. unfold edited, parse. rewrite M. reflexivity.
  - specialize (K c). unfold edited, parse. rewrite C. destruct (rbind (inflate c) from_bytes) as [x|e]; cbn [rbind].
    2:{ rewrite K in R'. apply reach_stop in R' as ->. cbn [w_fs w_out w_pc]. split; [reflexivity|]. split; [exact SAME|]. split; [reflexivity|]. exists e. auto. }
    destruct (change x) as [y|e].
    2:{ rewrite K in R'. apply reach_stop in R' as ->. cbn [w_fs w_out w_pc]. split; [reflexivity|]. split; [exact SAME|]. split; [reflexivity|]. exists e. auto. }
    destruct K as (b & h' & TB & FB & L & K). rewrite K in R'.
    assert (NEW : exists y0, Ok y = Ok y0 /\ to_bytes y0 = Ok b /\ from_bytes b = Ok y0) by (exists y; auto).
    destruct (reach_write _ _ _ _ _ _ R') as [->|[->|[(d & r & B & P & O & CD & W)|(f' & O & CD & R2)]]]; cbn [w_fs w_out w_pc].
    + split; [reflexivity|]. split; [exact SAME|]. split; [reflexivity|]. split; [reflexivity|]. exists b. auto.
    + split; [reflexivity|]. split; [exact SAME|]. left. reflexivity.
    + split; [exact W|]. split; [exact O|]. destruct P as [->| ->].
      * split; [reflexivity|]. exists b, d. auto.
      * right. exists b, (List.length d). split; [exact NEW|]. rewrite CD, B, firstn_app, Nat.sub_diag, firstn_all, firstn_O, app_nil_r. reflexivity.
    + apply reach_stop in R2 as ->. cbn [w_fs w_out w_pc]. split; [reflexivity|]. split; [exact O|]. split; [reflexivity|]. split; [exact L|]. exists b. auto.
Qed.
Lemma three_ends n h : (21 <= n)%nat -> ends inflate deflate n h three.
Proof.
  intros N f o. destruct (three_shape n h N) as (k & E & K). rewrite E. destruct (f source_file) as [c|] eqn:C.
  - assert (R : wreach (ReadFile source_file k) f o (mkWorld (Running (k c)) f o)) by (eapply wr_step; [apply wr_start|apply w_read, C]). specialize (K c).
    destruct (rbind (inflate c) from_bytes) as [x|e]; [|rewrite K in R; eexists _, _; split; [exact R|reflexivity]].
    destruct (change x) as [y|e]; [|rewrite K in R; eexists _, _; split; [exact R|reflexivity]].
    destruct K as (b & h' & _ & _ & _ & K). rewrite K in R.
    assert (R2 := wr_step _ _ _ _ _ R (w_open _ _ _ _ _)). destruct (write_out _ _ _ _ _ _ _ _ R2 (set_same _ _ _)) as (f' & R3 & _).
    eexists _, _. split; [exact R3|reflexivity].
  - eexists _, _. split; [eapply wr_step; [apply wr_start|apply w_missing, C]|reflexivity].
Qed.
End Program.

Lemma loom_runs : forall n h0 h x v, (1 <= n)%nat -> fresh_tree h0 h (DatFile_deep x) v ->
  match set_cost 22 0 69 x with
  | Ok y => exists en' h', exec source (call source n) "__main__" (nth 1 readme_1 (SRaise ValueError)) [("data"%string, v)] h = Ret ((en', None), h') /\ assoc "data"%string en' = Some v /\
      fresh_tree h0 h' (DatFile_deep y) v /\ (forall i, (i < List.length h0)%nat -> nth_error h' i = nth_error h i)
  | Err e => exec source (call source n) "__main__" (nth 1 readme_1 (SRaise ValueError)) [("data"%string, v)] h = Raise (Std e)
  end.
Proof.
  intros n h0 h x v N FT. pose proof (C53_loom n h0 h x v FT) as H. unfold user_run in H. change (middle readme_1) with [nth 1 readme_1 (SRaise ValueError)] in H. rewrite run_one in H.
  assert (EN : forall en' r h', exec source (call source n) "__main__" (nth 1 readme_1 (SRaise ValueError)) [("data"%string, v)] h = Ret ((en', r), h') -> en' = [("data"%string, v)] /\ r = None).
  { intros en' r h'. change (nth 1 readme_1 (SRaise ValueError)) with (SSetAttr (path_text (EName "data") (cost_path 22 0)) "amount" (EConst (KInt 69))). cbn [exec]. unfold mbind.
    destruct (eval source (call source n) "__main__" _ (EConst (KInt 69)) h) as [[w1 h1]|]; [|discriminate]. destruct (eval source (call source n) "__main__" _ (path_text _ _) h1) as [[w2 h2]|]; [|discriminate].
    destruct (set_attr source w2 "amount" w1 h2) as [[u h3]|]; [|discriminate]. intros X. injection X as <- <- <-. auto. }
  destruct (exec source (call source n) "__main__" (nth 1 readme_1 (SRaise ValueError)) [("data"%string, v)] h) as [[[en' r] h']|e].
  - destruct (EN en' r h' eq_refl) as [-> ->]. destruct (set_cost 22 0 69 x) as [y|e]; [|discriminate H]. destruct H as (q & h2 & E & F2 & FO & SAME). injection E as <-.
    exists [("data"%string, v)], h'. split; [reflexivity|]. split; [reflexivity|]. split; [exact F2|]. intros i I. apply SAME. intros ->.
    destruct FT as (fp & O & ND & RG). pose proof (RG _ (follow_in _ _ _ _ _ _ O ND FO)). lia.
  - destruct (set_cost 22 0 69 x) as [y|e']; [destruct H as (q & h2 & E & _); discriminate E|injection H as ->; reflexivity].
Qed.
Lemma loop_env n k : forall vs en h en' r h' v, civ_loop n k vs en h = Ret ((en', r), h') -> assoc "data"%string en = Some v -> assoc "data"%string en' = Some v /\ r = None.
Proof.
  induction vs as [|w vs IH]; intros en h en' r h' v E D; cbn [civ_loop] in E.
  - unfold mret in E. injection E as <- <- <-. auto.
  - unfold mbind at 1 in E. destruct (Py.block source (call source n) "__main__" [pop_stmt k] (("civ"%string, w) :: en) h) as [[[en1 r1] h1]|] eqn:B; [|discriminate E].
    assert (X : en1 = ("civ"%string, w) :: en /\ r1 = None).
    { rewrite block_cons in B. unfold pop_stmt in B. cbn [exec] in B. unfold mbind in B. destruct (eval source (call source n) "__main__" _ _ h) as [[u h2]|]; [|discriminate B]. cbn [mret snd fst] in B.
      unfold mret in B. cbn [snd fst Py.block] in B. unfold mret in B. injection B as <- <- _. auto. }
    destruct X as [-> ->]. cbn [snd fst] in E. apply (IH _ _ _ _ _ v E). exact D.
Qed.
Lemma kings_runs : forall n h0 h x v, (1 <= n)%nat -> fresh_tree h0 h (DatFile_deep x) v ->
  match pop_tasks 434 x with
  | Ok y => exists en' h', exec source (call source n) "__main__" (nth 1 readme_2 (SRaise ValueError)) [("data"%string, v)] h = Ret ((en', None), h') /\ assoc "data"%string en' = Some v /\
      fresh_tree h0 h' (DatFile_deep y) v /\ (forall i, (i < List.length h0)%nat -> nth_error h' i = nth_error h i)
  | Err e => exec source (call source n) "__main__" (nth 1 readme_2 (SRaise ValueError)) [("data"%string, v)] h = Raise (Std e)
  end.
Proof.
  intros n h0 h x v N FT. pose proof (C53_kings n h0 h x v N FT) as H. unfold user_run in H. change (middle readme_2) with [nth 1 readme_2 (SRaise ValueError)] in H. rewrite run_one in H.
  assert (EN : forall en' r h', exec source (call source n) "__main__" (nth 1 readme_2 (SRaise ValueError)) [("data"%string, v)] h = Ret ((en', r), h') -> assoc "data"%string en' = Some v /\ r = None).
  { intros en' r h' E.
    change (exec source (call source n) "__main__" (nth 1 readme_2 (SRaise ValueError)) [("data"%string, v)])
      with (w <~ eval source (call source n) "__main__" [("data"%string, v)] (EAttr (EName "data") "civs") ;; vs <~ items w ;; civ_loop n 434 vs [("data"%string, v)]) in E.
    unfold mbind at 1 in E. destruct (eval source (call source n) "__main__" _ (EAttr (EName "data") "civs") h) as [[w h1]|]; [|discriminate E].
    unfold mbind at 1 in E. destruct (items w h1) as [[vs h2]|]; [|discriminate E]. eapply loop_env; [exact E|reflexivity]. }
  destruct (exec source (call source n) "__main__" (nth 1 readme_2 (SRaise ValueError)) [("data"%string, v)] h) as [[[en' r] h']|e].
  - destruct (EN en' r h' eq_refl) as [D ->]. destruct (pop_tasks 434 x) as [y|e]; [|discriminate H]. destruct H as (h2 & E & F2 & SAME). injection E as <-.
    exists en', h'. auto.
  - destruct (pop_tasks 434 x) as [y|e']; [destruct H as (h2 & E & _); discriminate E|injection H as ->; reflexivity].
Qed.
Lemma loom_sound x y : DatFile_wf x -> set_cost 22 0 69 x = Ok y -> exists b, to_bytes y = Ok b /\ from_bytes b = Ok y.
Proof. intros W E. apply (C32_cost x 22 0 69 y W ltac:(lia) E). Qed.
Lemma kings_sound x y : DatFile_wf x -> pop_tasks 434 x = Ok y -> exists b, to_bytes y = Ok b /\ from_bytes b = Ok y.
Proof. intros W E. apply (C32_tasks 434 x y W E). Qed.

(** README.md:33-38 and README.md:42-49, as written. *)
Theorem C54_loom : forall inflate deflate n h, (21 <= n)%nat -> from_to inflate deflate (set_cost 22 0 69) n h readme_1.
Proof. intros inflate deflate n h N. apply (three_from_to inflate deflate _ (nth 1 readme_1 (SRaise ValueError)) eq_refl loom_runs loom_sound n h N). Qed.
Theorem C54_loom_ends : forall inflate deflate n h, (21 <= n)%nat -> ends inflate deflate n h readme_1.
Proof. intros inflate deflate n h N. apply (three_ends inflate deflate _ (nth 1 readme_1 (SRaise ValueError)) eq_refl loom_runs loom_sound n h N). Qed.
Theorem C54_kings : forall inflate deflate n h, (21 <= n)%nat -> from_to inflate deflate (pop_tasks 434) n h readme_2.
Proof. intros inflate deflate n h N. apply (three_from_to inflate deflate _ (nth 1 readme_2 (SRaise ValueError)) eq_refl kings_runs kings_sound n h N). Qed.
Theorem C54_kings_ends : forall inflate deflate n h, (21 <= n)%nat -> ends inflate deflate n h readme_2.
Proof. intros inflate deflate n h N. apply (three_ends inflate deflate _ (nth 1 readme_2 (SRaise ValueError)) eq_refl kings_runs kings_sound n h N). Qed.
(** So: when the program has ended without an exception, the target loads to the changed contents,
    and the source is as it was. *)
Theorem C54_result : forall inflate deflate, inverts inflate deflate -> forall change n h prog, from_to inflate deflate change n h prog ->
  forall f o s v h', wreach (user_program inflate deflate n h prog) f o s -> w_pc s = Running (Stop (Ret (v, h'))) ->
  parse inflate (w_fs s) target_file = edited inflate f change /\ w_fs s source_file = f source_file.
Proof.
  intros inflate deflate Z change n h prog FT f o s v h' R E. destruct (FT f o s R) as (_ & O & H). rewrite E in H. destruct H as (_ & _ & b & (y & EY & TB & FB) & C).
  split; [|apply O; discriminate]. rewrite EY. unfold parse. rewrite C, Z. exact FB.
Qed.

(** ** Concrete cases *)
Definition one_file (p : path) (c : bytes) : fs := fun q => if path_eq_dec q p then Some c else None.
Example C54_case : exists data y s v h', to_bytes loom_file = Ok data /\ set_cost 22 0 69 loom_file = Ok y /\ y <> loom_file /\
  wreach (user_program unstore store 21 [] readme_1) (one_file source_file (store data)) [] s /\ w_pc s = Running (Stop (Ret (v, h'))) /\
  parse unstore (w_fs s) target_file = Ok y /\ parse unstore (w_fs s) source_file = Ok loom_file.
Proof.
  destruct C53_case_loom as (data & y & TB & E & NE & _). destruct (C54_loom_ends unstore store 21 [] (le_n _) (one_file source_file (store data)) []) as (s & r & R & PC).
  destruct (C01_round_trip _ loom_wf) as (data' & TB' & FB & _). assert (data' = data) by congruence. subst data'.
  assert (P : parse unstore (one_file source_file (store data)) source_file = Ok loom_file).
  { unfold parse, one_file. destruct (path_eq_dec source_file source_file) as [_|X]; [|contradiction X; reflexivity]. rewrite store_inverts. exact FB. }
  assert (ED : edited unstore (one_file source_file (store data)) (set_cost 22 0 69) = Ok y) by (unfold edited; rewrite P; exact E).
  pose proof (C54_loom unstore store 21 [] (le_n _) _ _ _ R) as (_ & O & H). rewrite PC in H. destruct r as [[v h']|e].
  - exists data, y, s, v, h'. destruct (C54_result unstore store store_inverts _ _ _ _ (C54_loom unstore store 21 [] (le_n _)) _ _ _ _ _ R PC) as [P1 P2].
    split; [exact TB|]. split; [exact E|]. split; [exact NE|]. split; [exact R|]. split; [exact PC|]. split; [rewrite P1; exact ED|]. unfold parse. rewrite P2. exact P.
  - destruct H as (_ & e' & _ & X). rewrite ED in X. discriminate X.
Qed.
(** An object for the theorems about [save]: any. *)
Example C54_case_save : exists h v, stands false h (DatFile_deep (sample VER_88)) v /\ DatFile_wf (sample VER_88).
Proof. destruct (C46_objects (sample VER_88) []) as (h & v & _ & S). exists h, v. split; [exact S|apply sample_wf; discriminate]. Qed.

Definition all_of_this_file := (C54_parse, C54_parse_ends, C54_save, C54_save_back, C54_save_crash, C54_save_fails, C54_saved, C54_loom, C54_loom_ends, C54_kings, C54_kings_ends, C54_result).
Print Assumptions all_of_this_file.
