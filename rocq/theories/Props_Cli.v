(** * C56: the command [dat-to-json], as written (scripts.py), from the command line to what it prints;
    with failures at any moment. *)
From Verif Require Import Base PyInt PyFloat PyStr PyStruct DataTypes Versions Common Py Source SourceCli PyRep PyPure Deep.
From Verif Require Import M_DatFile Spec PyR PyRD PyTree PyLoad Props_Load FS World Props_World Dump DumpL Json JsonP JsonT Cli CliL CliS.
From Verif Require Import Wire Layout Shape FloatSpec Theory Sample Props_Dat Props_Source Props_FS Props_Json.
From Coq Require Import String Ascii Lia.
Open Scope Z_scope.
Local Open Scope list_scope.

(** ** What the text asks for *)
Section Shape.
Variable inflate : bytes -> res bytes.
Variable deflate : bytes -> bytes.
Variable repr : f64 -> pystr.
Variable argv : list pystr.
Notation xcall := (xcall inflate deflate repr argv).
Lemma wblock_step n call m s l en h : io_free_stmt s = false ->
  wblock n call m (s :: l) en h = abind (wexec n call m s en h) (fun r => match snd r with Some _ => wret r | None => wblock n call m l (fst r) end).
Proof. intros E. cbn [wblock forallb]. rewrite E. reflexivity. Qed.
Lemma xcall_parser n h l fields m pos kw : nth_error h l = Some (OInst "ArgumentParser" fields) -> xcall (S n) (PMeth (PRef l) m) pos kw h = parser_call argv l fields m pos kw h.
Proof. intros Q. cbn [Cli.xcall]. unfold wbind, lift, get_obj. rewrite Q. reflexivity. Qed.
Lemma wattr_parser n h l fields m : nth_error h l = Some (OInst "ArgumentParser" fields) -> wattr n (PRef l) m h = Stop (Ret (PMeth (PRef l) m, h)).
Proof. intros Q. unfold wattr, wbind, lift, get_obj. rewrite Q. reflexivity. Qed.
Notation line i := (nth i (f_body src_dat_to_json) (SReturn (EConst KNone))).
Lemma line_0 n h : wexec (S n) (xcall (S n)) "scripts" (line 0) [] h = Stop (Ret (([("parser"%string, PRef (List.length h))], None), h ++ [OInst "ArgumentParser" []])).
Proof. reflexivity. Qed.
Definition the_parser : obj := OInst "ArgumentParser" [("filename"%string, PClass "Path")].
Lemma line_1 n h l : nth_error h l = Some (OInst "ArgumentParser" []) ->
  wexec (S n) (xcall (S n)) "scripts" (line 1) [("parser"%string, PRef l)] h = Stop (Ret (([("parser"%string, PRef l)], None), put h l the_parser)).
Proof.
  intros Q. set (en := [("parser"%string, PRef l)]). transitivity (abind (abind (wattr (S n) (PRef l) "add_argument" h)
    (fun f => xcall (S n) f [PStr (lit "filename")] [("type"%string, PClass "Path"); ("help"%string, PStr (lit "The dat file to read"))])) (fun _ => wret (en, @None val))).
  { reflexivity. }
  rewrite (wattr_parser _ _ _ _ _ Q). cbn [abind]. rewrite (xcall_parser _ _ _ _ _ _ _ Q). reflexivity.
Qed.
End Shape.
Notation line i := (nth i (f_body src_dat_to_json) (SReturn (EConst KNone))).
Lemma line_2 inflate deflate repr a n h l : positional a = true -> nth_error h l = Some the_parser ->
  wexec (S n) (xcall inflate deflate repr [a] (S n)) "scripts" (line 2) [("parser"%string, PRef l)] h =
  Stop (Ret (([("args", PRef (List.length h)); ("parser", PRef l)]%string, None), h ++ [OInst "Namespace" [("filename"%string, PStr a)]])).
Proof.
  intros P Q. set (en := [("parser"%string, PRef l)]). transitivity (abind (abind (wattr (S n) (PRef l) "parse_args" h)
    (fun f => xcall inflate deflate repr [a] (S n) f [] [])) (fun v => wret (("args"%string, v) :: en, @None val))).
  { reflexivity. }
  rewrite (wattr_parser _ _ _ _ _ Q). cbn [abind]. rewrite (xcall_parser _ _ _ _ _ _ _ _ _ _ _ Q).
  unfold parser_call. cbn [String.eqb Ascii.eqb Bool.eqb forallb]. rewrite P. reflexivity.
Qed.
Lemma line_3 inflate deflate repr argv a n h l l' : let en := [("args", PRef l'); ("parser", PRef l)]%string in nth_error h l' = Some (OInst "Namespace" [("filename"%string, PStr a)]) ->
  wexec (S n) (xcall inflate deflate repr argv (S n)) "scripts" (line 3) en h = abind (wcall inflate deflate (S n) (PMeth (PClass "DatFile") "parse") [PStr a] [] h) (fun v => wret (("dat_file"%string, v) :: en, None)).
Proof.
  intros en Q. transitivity (abind (abind (abind (Stop (attr source (call source (S n)) (PRef l') "filename" h)) (fun v => wbind (wret (@nil val, @nil (string * val))) (fun r => wret (v :: fst r, snd r))))
    (fun pk => xcall inflate deflate repr argv (S n) (PMeth (PClass "DatFile") "parse") (fst pk) (snd pk))) (fun v => wret (("dat_file"%string, v) :: en, @None val))).
  { reflexivity. }
  unfold attr, mbind, get_obj. rewrite Q. reflexivity.
Qed.
Lemma line_4 inflate deflate repr argv n h v v' h' t l l' : let en := [("dat_file", v); ("args", PRef l'); ("parser", PRef l)]%string in
  asdict n v h = Ret (v', h') -> json_encode repr n 0 v' h' = Ret (t, h') ->
  wexec (S n) (xcall inflate deflate repr argv (S n)) "scripts" (line 4) en h = Print (t ++ [10]) (Stop (Ret ((en, None), h'))).
Proof.
  intros en E1 E2. set (X := xcall inflate deflate repr argv (S n)). set (none := wret (@nil val, @nil (string * val))).
  transitivity (abind (abind (abind (abind (abind (Stop (asdict n v h))
      (fun v => wbind (wbind (wret (PInt 2)) (fun w => wbind none (fun r => wret (fst r, ("indent"%string, w) :: snd r)))) (fun r => wret (v :: fst r, snd r))))
      (fun pk => X (PMeth (PClass "json") "dumps") (fst pk) (snd pk)))
      (fun v => wbind none (fun r => wret (v :: fst r, snd r))))
    (fun pk => X (PClass "print") (fst pk) (snd pk))) (fun _ => wret (en, @None val))).
  { reflexivity. }
  rewrite E1. cbn [abind].
  transitivity (abind (abind (abind (Stop (mbind (json_encode repr n 0 v') (fun t => mret (PStr t)) h'))
      (fun v => wbind none (fun r => wret (v :: fst r, snd r))))
    (fun pk => X (PClass "print") (fst pk) (snd pk))) (fun _ => wret (en, @None val))).
  { reflexivity. }
  unfold mbind. rewrite E2. reflexivity.
Qed.
Lemma put_new h o o' : put (h ++ [o]) (List.length h) o' = h ++ [o'].
Proof. induction h as [|a h IH]; [reflexivity|]. cbn [app List.length put]. rewrite IH. reflexivity. Qed.
(** The two objects of [argparse]. *)
Definition with_args (h : heap) (a : pystr) : heap := h ++ [the_parser; OInst "Namespace" [("filename"%string, PStr a)]].
Lemma cli_act inflate deflate repr a n h : positional a = true -> exists k, user_cli inflate deflate repr [a] (S (S n)) h = ReadFile a k /\
  forall c, match inflate c with
            | Err e => k c = Stop (Raise (Std e))
            | Ok data => match user_load (S n) (with_args h a) data (PBytes c) (PStr a) with
                         | Raise e => k c = Stop (Raise e)
                         | Ret (v, h1) => forall v' h2 t, asdict (S n) v h1 = Ret (v', h2) -> json_encode repr (S n) 0 v' h2 = Ret (t, h2) ->
                             k c = Print (t ++ [10]) (Stop (Ret (PNone, h2)))
                         end
            end.
Proof.
  intros P. set (N := S (S n)). set (X := xcall inflate deflate repr [a] N). set (body := f_body src_dat_to_json).
  pose (rest := fun en => abind (abind (wcall inflate deflate N (PMeth (PClass "DatFile") "parse") [PStr a] [] (with_args h a)) (fun v => wret (("dat_file"%string, v) :: en, None)))
    (fun r => match snd r with Some _ => wret r | None => wblock N X "scripts" (skipn 4 body) (fst r) end)).
  assert (E : wblock N X "scripts" body [] h = rest [("args", PRef (S (List.length h))); ("parser", PRef (List.length h))]%string).
  { change body with [line 0; line 1; line 2; line 3; line 4]. unfold X, N. rewrite wblock_step by reflexivity. rewrite (line_0 inflate deflate repr [a] (S n) h). cbn [abind snd fst].
    rewrite wblock_step by reflexivity. rewrite (line_1 inflate deflate repr [a] (S n) _ _ (nth_new h _)). cbn [abind snd fst]. rewrite put_new.
    rewrite wblock_step by reflexivity. rewrite (line_2 inflate deflate repr a (S n) _ _ P (nth_new h _)). cbn [abind snd fst].
    rewrite wblock_step by reflexivity. rewrite (line_3 inflate deflate repr [a] a (S n) _ _ _ (nth_new (h ++ [the_parser]) _)).
    unfold rest. rewrite app_length, Nat.add_comm. cbn [List.length Nat.add]. unfold with_args. rewrite <- app_assoc. reflexivity. }
  destruct (parse_act inflate deflate n (with_args h a) a) as (k & EK & K).
  eexists. split.
  { transitivity (abind (wblock N X "scripts" body [] h) (fun r => wret match snd r with Some v => v | None => PNone end)); [reflexivity|].
    rewrite E. unfold rest. fold N in EK. rewrite EK. cbn [abind]. reflexivity. }
  intros c. cbn beta. rewrite K. destruct (inflate c) as [data|e]; [|reflexivity].
  destruct (user_load (S n) (with_args h a) data (PBytes c) (PStr a)) as [[v h1]|e]; [|reflexivity].
  intros v' h2 t E1 E2. cbn [abind]. unfold wret at 1, lift, mret. cbn [abind snd fst].
  change (skipn 4 body) with [line 4]. rewrite wblock_step by reflexivity.
  pose proof (line_4 inflate deflate repr [a] (S n) h1 v v' h2 t (List.length h) (S (List.length h)) E1 E2) as L4. cbv zeta in L4. unfold X, N. rewrite L4. reflexivity.
Qed.

(** The shape of a run. *)
Definition shape (inflate : bytes -> res bytes) (repr : f64 -> pystr) (h : heap) (a : path) (t : act val) : Prop :=
  exists k, t = ReadFile a k /\ forall c,
    match rbind (inflate c) from_bytes with
    | Err e => k c = Stop (Raise (Std e))
    | Ok x => exists h', later h h' /\ k c = Print (dumps repr 0 (shown x) ++ [10]) (Stop (Ret (PNone, h')))
    end.
Lemma cli_shape inflate deflate repr a n h : (19 <= n)%nat -> positional a = true -> shape inflate repr h a (user_cli inflate deflate repr [a] n h).
Proof.
  intros N P. destruct n as [|[|n]]; [lia..|]. destruct (cli_act inflate deflate repr a n h P) as (k & E & K). exists k. split; [exact E|]. intros c. specialize (K c).
  destruct (inflate c) as [data|e]; cbn [rbind]; [|exact K].
  pose proof (C49_exact (S n) (with_args h a) data (PBytes c) (PStr a) ltac:(lia)) as H. destruct (from_bytes data) as [x|e]; [|rewrite H in K; exact K].
  destruct H as (v & h1 & w & EL & L1 & W & fp & O & _). rewrite EL in K.
  assert (Y : exists old, time_of w = era_of old /\ says old (S n) (DatFile_deep x) (shown x)).
  { exists (negb (version_ge w VER_84)). split; [unfold time_of, era_of; destruct (version_ge w VER_84); reflexivity|].
    unfold shown. rewrite W. assert (M : exists m, S n = (10 + m)%nat) by (exists (n - 9)%nat; lia). destruct M as [m ->]. cbn [Nat.add].
    destruct (version_ge w VER_84); cbn [negb]; [apply DatFile_new|apply DatFile_old]. }
  destruct Y as (old & T & Y). rewrite T in O. destruct (printed_says repr old (S n) h1 _ v _ fp O Y) as (v' & h2 & E1 & L2 & E2).
  exists h2. split; [eapply later_trans; [|exact L2]; eapply later_trans; [|exact L1]; apply later_app|]. apply (K _ _ _ E1 E2).
Qed.
Lemma main_shape inflate deflate repr a n h : (20 <= n)%nat -> positional a = true -> shape inflate repr h a (user_main inflate deflate repr [a] n h).
Proof.
  intros N P. destruct n as [|n]; [lia|]. destruct (cli_shape inflate deflate repr a n h ltac:(lia) P) as (k & E & K).
  assert (U : user_main inflate deflate repr [a] (S n) h =
    abind (abind (abind (user_cli inflate deflate repr [a] n h) (fun _ => wret (@nil (string * val), @None val))) (fun r => match snd r with Some _ => wret r | None => wret (fst r, None) end))
      (fun r => wret match snd r with Some v => v | None => PNone end)) by reflexivity.
  rewrite U, E. cbn [abind]. eexists. split; [reflexivity|]. intros c. specialize (K c). cbn beta. destruct (rbind (inflate c) from_bytes) as [x|e].
  - destruct K as (h' & L & ->). exists h'. split; [exact L|reflexivity].
  - rewrite K. reflexivity.
Qed.

(** ** What the operating system makes of it *)
Lemma reach_print {A} s (t : act A) f o w : wreach (Print s t) f o w ->
  (exists pre rest, s = pre ++ rest /\ (w_pc w = Running (Print rest t) \/ w_pc w = OsError) /\ w_fs w = f /\ w_out w = o ++ pre) \/ wreach t f (o ++ s) w.
Proof.
  intros R. induction R as [|w w' R IH T].
  - left. exists [], s. cbn [w_pc w_fs w_out]. split; [reflexivity|]. split; [left; reflexivity|]. split; [reflexivity|]. rewrite app_nil_r. reflexivity.
  - destruct IH as [(pre & rest & E & P & F & O)|R']; [|right; eapply wr_step; eassumption].
    destruct w as [p g out]. cbn [w_pc w_fs w_out] in *. subst g out. destruct P as [->| ->]; [|inversion T]. inversion T; subst; cbn [w_pc w_fs w_out].
    + left. match goal with |- context [skipn ?k rest] => exists (pre ++ firstn k rest), (skipn k rest) end. split; [rewrite <- app_assoc, firstn_skipn; reflexivity|]. split; [left; reflexivity|]. split; [reflexivity|]. rewrite app_assoc. reflexivity.
    + left. exists pre, rest. split; [reflexivity|]. split; [right; reflexivity|]. split; reflexivity.
    + right. rewrite app_nil_r. apply wr_start.
Qed.
(** What can be seen at any moment of [dat-to-json a]: no file changes; what has been printed is nothing
    until the whole file is loaded, then a beginning of the text of Json.v, and all of it when the command
    ends without an exception; if loading fails the command ends with that exception and prints nothing. *)
Definition as_printed (repr : f64 -> pystr) inflate (f : fs) (o : pystr) (a : path) (s : world val) : Prop :=
  w_fs s = f /\
  match w_pc s with
  | Running (ReadFile q _) => q = a /\ w_out s = o
  | Running (Print rest _) => exists t pre, printed repr inflate f a = Ok t /\ t = pre ++ rest /\ w_out s = o ++ pre
  | Running (Stop (Ret _)) => exists t, printed repr inflate f a = Ok t /\ w_out s = o ++ t
  | Running (Stop (Raise e)) => exists e', e = Std e' /\ printed repr inflate f a = Err e' /\ w_out s = o
  | OsError => w_out s = o \/ exists t pre rest, printed repr inflate f a = Ok t /\ t = pre ++ rest /\ w_out s = o ++ pre
  | _ => False
  end.
Lemma shape_prints inflate repr h a t f o s : shape inflate repr h a t -> wreach t f o s -> as_printed repr inflate f o a s.
Proof.
  intros (k & -> & K) R. unfold as_printed, printed, dat_to_json, parse. destruct (reach_read _ _ _ _ _ R) as [->|[->|[(M & ->)|(c & C & R')]]]; cbn [w_fs w_out w_pc].
  - auto.
  - auto.
  - split; [reflexivity|]. rewrite M. exists FileNotFoundError. auto.
  - rewrite C. specialize (K c). destruct (inflate c) as [data|e]; cbn [rbind] in *.
    + destruct (from_bytes data) as [x|e]; cbn [rbind] in *.
      * destruct K as (h' & _ & K). rewrite K in R'. destruct (reach_print _ _ _ _ _ R') as [(pre & rest & E & P & F & O)|R2].
        -- split; [exact F|]. rewrite O. destruct P as [->| ->]; [exists (dumps repr 0 (shown x) ++ [10]), pre; auto|right; exists (dumps repr 0 (shown x) ++ [10]), pre, rest; auto].
        -- apply reach_stop in R2 as ->. cbn [w_fs w_out w_pc]. split; [reflexivity|]. eexists. split; reflexivity.
      * rewrite K in R'. apply reach_stop in R' as ->. cbn [w_fs w_out w_pc]. split; [reflexivity|]. exists e. auto.
    + rewrite K in R'. apply reach_stop in R' as ->. cbn [w_fs w_out w_pc]. split; [reflexivity|]. exists e. auto.
Qed.
Lemma shape_ends inflate repr h a t f o : shape inflate repr h a t ->
  match printed repr inflate f a with
  | Ok text => exists h', later h h' /\ wreach t f o (mkWorld (Running (Stop (Ret (PNone, h')))) f (o ++ text))
  | Err e => wreach t f o (mkWorld (Running (Stop (Raise (Std e)))) f o)
  end.
Proof.
  intros (k & -> & K). unfold printed, dat_to_json, parse. destruct (f a) as [c|] eqn:C; cbn [rbind].
  - assert (R : wreach (ReadFile a k) f o (mkWorld (Running (k c)) f o)) by (eapply wr_step; [apply wr_start|apply w_read, C]). specialize (K c).
    destruct (inflate c) as [data|e]; cbn [rbind] in *; [|rewrite K in R; exact R]. destruct (from_bytes data) as [x|e]; cbn [rbind] in *; [|rewrite K in R; exact R].
    destruct K as (h' & L & K). rewrite K in R. exists h'. split; [exact L|]. set (s := dumps repr 0 (shown x) ++ [10]) in *.
    assert (R2 : wreach (ReadFile a k) f o (mkWorld (Running (Print [] (Stop (Ret (PNone, h'))))) f (o ++ s))).
    { eapply wr_step; [exact R|]. pose proof (w_print s (Stop (Ret (PNone, h'))) f o (List.length s)) as T. rewrite skipn_all, firstn_all in T. apply T.
      unfold s. rewrite app_length. cbn [List.length]. lia. }
    eapply wr_step; [exact R2|apply w_printed].
  - eapply wr_step; [apply wr_start|apply w_missing, C].
Qed.

(** ** [dat-to-json a], and [python scripts.py a] *)
Theorem C56_prints : forall inflate deflate repr n h f o a s, (19 <= n)%nat -> positional a = true ->
  wreach (user_cli inflate deflate repr [a] n h) f o s -> as_printed repr inflate f o a s.
Proof. intros inflate deflate repr n h f o a s N P R. exact (shape_prints _ _ _ _ _ _ _ _ (cli_shape inflate deflate repr a n h N P) R). Qed.
(** Unless the operating system fails it ends, with everything printed or with the exception. *)
Theorem C56_ends : forall inflate deflate repr n h f o a, (19 <= n)%nat -> positional a = true ->
  match printed repr inflate f a with
  | Ok text => exists h', later h h' /\ wreach (user_cli inflate deflate repr [a] n h) f o (mkWorld (Running (Stop (Ret (PNone, h')))) f (o ++ text))
  | Err e => wreach (user_cli inflate deflate repr [a] n h) f o (mkWorld (Running (Stop (Raise (Std e)))) f o)
  end.
Proof. intros inflate deflate repr n h f o a N P. exact (shape_ends _ _ _ _ _ _ _ (cli_shape inflate deflate repr a n h N P)). Qed.
Theorem C56_main : forall inflate deflate repr n h f o a, (20 <= n)%nat -> positional a = true ->
  (forall s, wreach (user_main inflate deflate repr [a] n h) f o s -> as_printed repr inflate f o a s) /\
  match printed repr inflate f a with
  | Ok text => exists h', later h h' /\ wreach (user_main inflate deflate repr [a] n h) f o (mkWorld (Running (Stop (Ret (PNone, h')))) f (o ++ text))
  | Err e => wreach (user_main inflate deflate repr [a] n h) f o (mkWorld (Running (Stop (Raise (Std e)))) f o)
  end.
Proof.
  intros inflate deflate repr n h f o a N P. pose proof (main_shape inflate deflate repr a n h N P) as S. split; [intros s R; exact (shape_prints _ _ _ _ _ _ _ _ S R)|exact (shape_ends _ _ _ _ _ _ _ S)].
Qed.

(** What was saved by one program and dumped by the command: an object with the contents [x] is saved to
    [p] by [dat.save(p)], then [dat-to-json p] is run; if both end without an exception, a JSON reader gets
    all of [x] from what the command printed (when the floats of [x] are finite). *)
Theorem C56_saved : forall inflate deflate, inverts inflate deflate -> forall repr float_of, reads_back repr float_of ->
  forall n h x v p f o s w h', (21 <= n)%nat -> DatFile_wf x -> stands false h (DatFile_deep x) v ->
  wreach (user_save_to inflate deflate n h v p) f o s -> w_pc s = Running (Stop (Ret (w, h'))) ->
  forall m k s' r, (19 <= m)%nat -> positional p = true ->
  wreach (user_cli inflate deflate repr [p] m k) (w_fs s) [] s' -> w_pc s' = Running (Stop (Ret r)) ->
  forallb finite (floats_in (shown x)) = true -> loads float_of (w_out s') = Some (json_of (shown x)).
Proof.
  intros inflate deflate Z repr float_of RB n h x v p f o s w h' N W S R E m k s' r M P R' E' F.
  destruct (C54_saved _ _ Z _ _ _ _ _ _ _ _ _ _ N W S R E) as (_ & Q & _). destruct (C56_prints _ _ _ _ _ _ _ _ _ M P R') as [_ A]. rewrite E' in A.
  destruct A as (t & T & ->). cbn [app]. destruct (C42_json _ _ RB _ _ _ _ T) as (y & Y & L). rewrite Q in Y. injection Y as <-. rewrite F in L. exact L.
Qed.

(** ** Cases *)
(** The hypotheses are met: a file of each version, saved, and dumped by the command to the end. *)
Example C56_case : forall v f, v <> UNDEFINED -> exists f' t h', saved store (sample v) [97] f f' /\ printed exact_repr unstore f' [97] = Ok t /\ positional [97] = true /\
  wreach (user_cli unstore store exact_repr [[97]] 19 []) f' [] (mkWorld (Running (Stop (Ret (PNone, h')))) f' t).
Proof.
  intros v f V. destruct (C27_can_save store (sample v) [97] f (sample_wf v V)) as (f' & S). destruct (C42_saved _ _ exact_reads_back _ _ store_inverts _ _ _ _ (sample_wf v V) S) as (t & P & _).
  pose proof (C56_ends unstore store exact_repr 19 [] f' [] [97] (le_n _) eq_refl) as H. rewrite P in H. destruct H as (h' & _ & H). exists f', t, h'. auto.
Qed.
(** What is printed depends on the version: [invulnerability_level] before 8.4. *)
Example C56_case_level : let repr := fun _ => text "0.0" in
  len (dumps repr 0 (shown (sample VER_78))) < len (dumps repr 0 (DatFile_asdict (sample VER_78))) /\
  len (dumps repr 0 (shown (sample VER_88))) = len (dumps repr 0 (DatFile_asdict (sample VER_88))).
Proof. split; vm_compute; reflexivity. Qed.
(** A damaged file: nothing is printed. *)
Example C56_case_damaged : wreach (user_cli unstore store exact_repr [[97]] 19 []) (one_file [97] []) [] (mkWorld (Running (Stop (Raise (Std ZlibError)))) (one_file [97] []) []).
Proof. exact (C56_ends unstore store exact_repr 19 [] (one_file [97] []) [] [97] (le_n _) eq_refl). Qed.

Definition all_of_this_file := (C56_prints, C56_ends, C56_main, C56_saved, C56_case, C56_case_level, C56_case_damaged).
Print Assumptions all_of_this_file.
