(** * C55: programs that load a file, change it in place and save it, from files to files.

    Any program of the shape
<<
    data = DatFile.parse(p)
    <statements>
    data.save(q)
>>
    ([p] and [q] may be the same), with statements that do not read or write files themselves; and, for
    those written with assignments to attributes and items, [pop], [append], loops, local names and
    conditions, of values that are computed, new objects or deep copies (PyEdit.v), exactly what it leaves in [q] or
    raises. *)
From Verif Require Import Base PyInt PyFloat PyStr PyStruct DataTypes Versions Common Py Source PyRep PyPure PyPureSim PyW PyWE Deep PyWC PyWS PyWD.
From Verif Require Import M_Civ M_Unit M_DatFile Spec Shape Update Edit Sample Props_Dat Props_Source PyR PyRE PyTree PyLoad Props_Load Props_Readme Props_Programs.
From Verif Require Import Theory ConvertE Props_Convert FS Props_FS World Props_World PyNew PyEdit PyKinds.
From Coq Require Import String Ascii Lia.
Open Scope Z_scope.
Local Open Scope list_scope.

(** The program. *)
Definition patch (p q : string) (body : list stmt) : list stmt :=
  SAssign "data" (ECall (EAttr (EName "DatFile") "parse") [EConst (KStr p)]) ::
  body ++ [SExpr (ECall (EAttr (EName "data") "save") [EConst (KStr q)])].
Example readme_1_patch : readme_1 = patch "path/to/empires2_x2_p1.dat" "path/to/modded/empires2_x2_p1.dat"
  (texts "data" [Assign [Attr "techs"; Item 22; Attr "resource_costs"; Item 0] "amount" (Const (KInt 69))]).
Proof. reflexivity. Qed.
Example readme_2_patch : readme_2 = patch "path/to/empires2_x2_p1.dat" "path/to/modded/empires2_x2_p1.dat"
  (texts "data" [Each [Attr "civs"] "civ" [Pop [Attr "units"; Item 434; Attr "bird"; Attr "tasks"]]]).
Proof. reflexivity. Qed.

(** What such a program may do when [outcome f b] means that it computes the bytes [b] from the files
    [f], and [fails f e] that it raises [e]: only [q] changes, and only after everything has been
    computed; [q] holds what it held, or a beginning of the new file, or all of it once the program has
    ended; if the program raises, no file has changed. *)
Definition writes_last (deflate : bytes -> bytes) (p q : path) (t : act val) (computes : fs -> bytes -> Prop) (fails : fs -> fault -> Prop) : Prop :=
  forall f o s, wreach t f o s -> w_out s = o /\ same_but q f (w_fs s) /\
  match w_pc s with
  | Running (ReadFile p' _) => p' = p /\ w_fs s = f
  | Running (WriteFile q' c _) => q' = q /\ w_fs s = f /\ exists b, computes f b /\ c = deflate b
  | Writing q' rest _ => q' = q /\ exists b d, computes f b /\ deflate b = d ++ rest /\ w_fs s q = Some d
  | Running (Stop (Ret (v, h'))) => v = PNone /\ exists b, computes f b /\ w_fs s q = Some (deflate b)
  | Running (Stop (Raise e)) => w_fs s = f /\ fails f e
  | OsError => w_fs s = f \/ exists b k, computes f b /\ w_fs s q = Some (firstn k (deflate b))
  | Running (Print _ _) => False
  end.

Section Mod.
Variables (inflate : bytes -> res bytes) (deflate : bytes -> bytes) (p q : string) (body : list stmt).
Hypothesis quiet : forallb io_free_stmt body = true.
Notation save_stmt := (SExpr (ECall (EAttr (EName "data") "save") [EConst (KStr q)])).
Lemma wblock_body n wc s : io_free_stmt s = false -> forall l en h, forallb io_free_stmt l = true ->
  wblock n wc "__main__" (l ++ [s]) en h =
  match Py.block source (call source n) "__main__" l en h with
  | Raise e => Stop (Raise e)
  | Ret ((en', Some w), h') => Stop (Ret ((en', Some w), h'))
  | Ret ((en', None), h') => wblock n wc "__main__" [s] en' h'
  end.
Proof.
  intros NS. induction l as [|a l IH]; intros en h Q; [reflexivity|]. cbn [forallb] in Q. apply andb_true_iff in Q as [Q1 Q2].
  cbn [app wblock]. replace (forallb io_free_stmt (a :: l ++ [s])) with false.
  2:{ symmetry. cbn [forallb]. rewrite forallb_app. cbn [forallb]. rewrite NS. cbn [andb]. rewrite !andb_false_r. reflexivity. }
  rewrite Q1. unfold wbind, lift. cbn [Py.block]. unfold mbind. destruct (exec source (call source n) "__main__" a en h) as [[[en' [w|]] h']|e]; cbn [abind snd fst]; [reflexivity| |reflexivity].
  apply (IH en' h' Q2).
Qed.
Lemma mod_act n h : exists k, user_program inflate deflate (S (S n)) h (patch p q body) = ReadFile (lit p) k /\ forall c,
  k c = match inflate c with
        | Err e => Stop (Raise (Std e))
        | Ok data => match user_load (S n) h data (PBytes c) (PStr (lit p)) with
                     | Raise e => Stop (Raise e)
                     | Ret (v, h1) => match Py.block source (call source (S (S n))) "__main__" body [("data"%string, v)] h1 with
                                      | Raise e => Stop (Raise e)
                                      | Ret ((en', Some w), h2) => Stop (Ret (w, h2))
                                      | Ret ((en', None), h2) =>
                                          abind (wblock (S (S n)) (wcall inflate deflate (S (S n))) "__main__" [save_stmt] en' h2)
                                            (fun r => wret match snd r with Some v => v | None => PNone end)
                                      end
                     end
        end.
Proof.
  destruct (parse_act inflate deflate n h (lit p)) as (k & E & K).
  assert (P : user_program inflate deflate (S (S n)) h (patch p q body) =
    abind (abind (abind (wcall inflate deflate (S (S n)) (PMeth (PClass "DatFile") "parse") [PStr (lit p)] [] h) (fun v => wret ([("data"%string, v)], None)))
      (fun (r : env * option val) => match snd r with Some _ => wret r | None => wblock (S (S n)) (wcall inflate deflate (S (S n))) "__main__" (body ++ [save_stmt]) (fst r) end))
      (fun (r : env * option val) => wret match snd r with Some v => v | None => PNone end)).
  { reflexivity. }
  rewrite P, E. eexists. split; [reflexivity|]. intros c. cbn beta. rewrite K. destruct (inflate c) as [data|e]; [|reflexivity].
  destruct (user_load (S n) h data (PBytes c) (PStr (lit p))) as [[v h1]|e]; [|reflexivity].
  cbn [abind]. unfold wret at 1, lift, mret. cbn [abind snd fst]. rewrite (wblock_body _ _ save_stmt eq_refl body _ _ quiet).
  destruct (Py.block source (call source (S (S n))) "__main__" body [("data"%string, v)] h1) as [[[en' [w|]] h2]|e]; reflexivity.
Qed.
Lemma save_end n en l fs h : assoc "data"%string en = Some (PRef l) -> nth_error h l = Some (OInst "DatFile" fs) ->
  wblock n (wcall inflate deflate n) "__main__" [save_stmt] en h =
  abind (abind (wcall inflate deflate n (PMeth (PRef l) "save") [PStr (lit q)] [] h) (fun _ => wret (en, None))) (fun (r : env * option val) => match snd r with Some _ => wret r | None => wret (fst r, None) end).
Proof.
  intros A Q. transitivity (abind (abind (abind (abind (Stop (name source "__main__" en "data" h)) (fun v => wattr n v "save")) (fun f => wcall inflate deflate n f [PStr (lit q)] [])) (fun _ => wret (en, None)))
    (fun (r : env * option val) => match snd r with Some _ => wret r | None => wret (fst r, None) end)).
  { reflexivity. }
  unfold name. rewrite A. unfold mret. cbn [abind]. rewrite (wattr_save _ _ _ _ Q). cbn [abind]. reflexivity.
Qed.
(** Anything of this shape: *)
Lemma shape_writes_last (k : bytes -> act val) (computes : fs -> bytes -> Prop) (fails : fs -> fault -> Prop) :
  (forall f, f (lit p) = None -> fails f (Std FileNotFoundError)) ->
  (forall f c, f (lit p) = Some c -> (exists e, k c = Stop (Raise e) /\ fails f e) \/ exists b h', k c = WriteFile (lit q) (deflate b) (Stop (Ret (PNone, h'))) /\ computes f b) ->
  writes_last deflate (lit p) (lit q) (ReadFile (lit p) k) computes fails.
Proof.
  intros F0 K f o s0 R. assert (SAME : same_but (lit q) f f) by (intros z _; reflexivity).
  destruct (reach_read _ _ _ _ _ R) as [->|[->|[(M & ->)|(c & C & R')]]]; cbn [w_fs w_out w_pc].
  - auto.
  - auto.
  - auto.
  - destruct (K f c C) as [(e & E & FE)|(b & h' & E & CB)]; rewrite E in R'.
    + apply reach_stop in R' as ->. cbn [w_fs w_out w_pc]. auto.
    + destruct (reach_write _ _ _ _ _ _ R') as [->|[->|[(d & r & B & P & O & CD & W)|(f' & O & CD & R2)]]]; cbn [w_fs w_out w_pc].
      * split; [reflexivity|]. split; [exact SAME|]. split; [reflexivity|]. split; [reflexivity|]. exists b. auto.
      * split; [reflexivity|]. split; [exact SAME|]. left. reflexivity.
      * split; [exact W|]. split; [exact O|]. destruct P as [->| ->].
        -- split; [reflexivity|]. exists b, d. auto.
        -- right. exists b, (List.length d). split; [exact CB|]. rewrite CD, B, firstn_app, Nat.sub_diag, firstn_all, firstn_O, app_nil_r. reflexivity.
      * apply reach_stop in R2 as ->. cbn [w_fs w_out w_pc]. split; [reflexivity|]. split; [exact O|]. split; [reflexivity|]. exists b. auto.
Qed.
End Mod.

(** ** Any statements *)
(** The statements, run after loading, end with [data] in the environment [en] and heap [h2]. *)
Definition ends_with inflate (n : nat) (h : heap) (p : string) (body : list stmt) (f : fs) (r : outcome ((env * option val) * heap)) : Prop :=
  exists c data v h1, f (lit p) = Some c /\ inflate c = Ok data /\ user_load n h data (PBytes c) (PStr (lit p)) = Ret (v, h1) /\
    Py.block source (call source (S n)) "__main__" body [("data"%string, v)] h1 = r.
(** [data] is still a DatFile then: no statement changes the class of an object (PyKinds.v), and the
    statements do not assign to [data]. *)
Lemma still_a_file inflate n h p body : (18 <= n)%nat -> forallb (leaves "data") body = true -> forall f en r h2, ends_with inflate n h p body f (Ret ((en, r), h2)) ->
  r = None /\ exists l fs, assoc "data"%string en = Some (PRef l) /\ nth_error h2 l = Some (OInst "DatFile" fs).
Proof.
  intros N LV f en r h2 (c & data & v & h1 & F & I & U & B). pose proof (C49_DatFile n h data (PBytes c) (PStr (lit p)) N) as L.
  destruct (from_bytes data) as [x|e]; [|rewrite L in U; discriminate U]. destruct L as (v' & h' & E & _ & fp & O & _). rewrite E in U. injection U as -> ->.
  destruct (leaves_block _ _ _ "data" _ LV _ _ _ _ _ B) as [-> A]. split; [reflexivity|]. cbn [assoc String.eqb Ascii.eqb Bool.eqb] in A.
  apply own_obj in O as (l & fs & fps & -> & Q & _). pose proof (block_kinds _ _ _ _ _ _ _ _ B) as K. destruct (K _ _ Q) as (o' & Q' & SK). destruct o' as [vs|c' fs']; [destruct SK|]. destruct SK as [-> _].
  eexists _, _. split; [exact A|exact Q'].
Qed.
(** Whatever the statements do, the file [q] is only touched when they, and [to_bytes], have succeeded. *)
Theorem C55_any : forall inflate deflate n h p q body, (17 <= n)%nat -> forallb io_free_stmt body = true -> forallb (leaves "data") body = true ->
  writes_last deflate (lit p) (lit q) (user_program inflate deflate (S (S n)) h (patch p q body))
    (fun f b => exists en h2 v h3, ends_with inflate (S n) h p body f (Ret ((en, None), h2)) /\ assoc "data"%string en = Some v /\ user_save_file (S n) h2 v = Ret (PBytes b, h3))
    (fun f e => (f (lit p) = None /\ e = Std FileNotFoundError) \/
      (exists c e', f (lit p) = Some c /\ inflate c = Err e' /\ e = Std e') \/
      (exists c data, f (lit p) = Some c /\ inflate c = Ok data /\ user_load (S n) h data (PBytes c) (PStr (lit p)) = Raise e) \/
      ends_with inflate (S n) h p body f (Raise e) \/
      (exists en h2 v, ends_with inflate (S n) h p body f (Ret ((en, None), h2)) /\ assoc "data"%string en = Some v /\
         (user_save_file (S n) h2 v = Raise e \/ exists w h3, user_save_file (S n) h2 v = Ret (w, h3) /\ (forall b, w <> PBytes b) /\ e = Unsupported))).
Proof.
  intros inflate deflate n h p q body N Q LV. pose proof (still_a_file inflate (S n) h p body (le_n_S _ _ N) LV) as ST. destruct (mod_act inflate deflate p q body Q n h) as (k & E & K). rewrite E. apply shape_writes_last.
  - intros f M. left. auto.
  - intros f c C. specialize (K c). destruct (inflate c) as [data|e] eqn:I.
    2:{ left. exists (Std e). split; [exact K|]. right. left. exists c, e. auto. }
    destruct (user_load (S n) h data (PBytes c) (PStr (lit p))) as [[v h1]|e] eqn:L.
    2:{ left. exists e. split; [exact K|]. right. right. left. exists c, data. auto. }
    assert (EW : forall r, Py.block source (call source (S (S n))) "__main__" body [("data"%string, v)] h1 = r -> ends_with inflate (S n) h p body f r).
    { intros r B. exists c, data, v, h1. auto. }
    destruct (Py.block source (call source (S (S n))) "__main__" body [("data"%string, v)] h1) as [[[en r] h2]|e].
    2:{ left. exists e. split; [exact K|]. right. right. right. left. apply EW. reflexivity. }
    specialize (EW _ eq_refl). destruct (ST _ _ _ _ EW) as (-> & l & fs & D & QL). rewrite (save_end inflate deflate q _ _ _ _ _ D QL) in K.
    pose proof (save_act inflate deflate n h2 l fs (lit q) QL) as SA.
    destruct (user_save_file (S n) h2 (PRef l)) as [[w h3]|e] eqn:US.
    2:{ rewrite SA in K. left. exists e. split; [exact K|]. right. right. right. right. exists en, h2, (PRef l). auto. }
    destruct (match w with PBytes b => true | _ => false end) eqn:WB.
    + destruct w as [| | | | |b| | | | | | |]; try discriminate WB. rewrite SA in K. right. exists b, h3. split; [exact K|]. exists en, h2, (PRef l), h3. auto.
    + left. exists Unsupported. split.
      * rewrite K. rewrite (wcall_save _ _ _ _ _ _ _ _ QL).
        assert (A : wapply (S n) (wcall inflate deflate (S n)) src_DatFile_save [PRef l; PStr (lit q)] [] h2 =
          abind (abind (Stop (mbind (fun h => user_save_file (S n) h (PRef l)) (fun v => mret (("uncompressed"%string, v) :: [("self", PRef l); ("target_file", PStr (lit q))]%string, None)) h2))
            (fun (r : env * option val) => match snd r with Some _ => wret r | None => wblock (S n) (wcall inflate deflate (S n)) "datfile" (skipn 1 (f_body src_DatFile_save)) (fst r) end))
            (fun (r : env * option val) => wret match snd r with Some v => v | None => PNone end)) by reflexivity.
        rewrite A. unfold mbind. rewrite US. destruct w; try discriminate WB; reflexivity.
      * right. right. right. right. exists en, h2, (PRef l). split; [exact EW|]. split; [exact D|]. right. exists w, h3. split; [exact US|]. split; [|reflexivity].
        intros b ->. discriminate WB.
Qed.

(** Statements that are not of the kind below, but to which [C55_any] applies:
<<
    loom = data.techs[22]
    assert loom.name == 'Loom'
    loom.resource_costs[0].amount = 69
>> *)
Example C55_case_any :
  let body := [SAssign "loom" (EIndex (EAttr (EName "data") "techs") (EConst (KInt 22)));
               SAssert (ECmp CEq (EAttr (EName "loom") "name") (EConst (KStr "Loom")));
               SSetAttr (EIndex (EAttr (EName "loom") "resource_costs") (EConst (KInt 0))) "amount" (EConst (KInt 69))]%string in
  forallb io_free_stmt body = true /\ forallb (leaves "data") body = true.
Proof. split; reflexivity. Qed.
(** No statement, whatever it calls, changes what an object is: after it every object that was there is
    there, a list if it was a list, of the same class if it was an instance, and with the same attributes
    if its class is one of the records of the library. *)
Theorem C55_kinds : forall n module s en h r h' i, exec source (call source n) module s en h = Ret (r, h') ->
  match nth_error h i with
  | None => True
  | Some (OList _) => exists vs, nth_error h' i = Some (OList vs)
  | Some (OInst c fs) => exists fs', nth_error h' i = Some (OInst c fs') /\
      forall k, class_of source c = Some k -> c_sort k = Dataclass -> map fst fs' = map fst fs
  end.
Proof.
  intros n module s en h r h' i E. pose proof (kk_exec source _ module (kk_call source n) s en h _ _ E i) as K. destruct (nth_error h i) as [o|]; [|exact I].
  destruct (K o eq_refl) as (o' & -> & SK). destruct o as [vs|c fs], o' as [vs'|c' fs']; try destruct SK; subst; eexists; [reflexivity|]. split; [reflexivity|].
  intros k C D. eapply H0; [exact C|]. rewrite D. discriminate.
Qed.

(** ** Changes *)
(** The statements [cs] carry out [change]: what they are meant to do (PyEdit.v) to the contents of a file
    is [change], exceptions included. *)
Definition carries_out (cs : list PyEdit.change) (change : DatFile -> res DatFile) : Prop :=
  forall x, does_all cs (DatFile_deep x) = Some (match change x with Ok y => Ok (DatFile_deep y) | Err e => Err e end).
(** The bytes of the new file: that of [p], loaded, changed, serialised. *)
Definition new_bytes inflate (f : fs) (p : path) (change : DatFile -> res DatFile) : res bytes :=
  rbind (parse inflate f p) (fun x => rbind (change x) to_bytes).

Lemma data_clear v : clear [("data"%string, v)].
Proof. intros s X. cbn [assoc]. destruct (String.eqb_spec s "data") as [->|]; [discriminate X|reflexivity]. Qed.
(** In any heap: running the statements on a loaded file gives the changed file, made of objects that did
    not exist before it was loaded and that are not shared between two places in it, and changes no object
    that existed before it was loaded. *)
Theorem C55_runs : forall n h0 h x v cs change, (1 <= n)%nat -> fresh_tree h0 h (DatFile_deep x) v -> carries_out cs change -> all_scoped "data" cs ->
  match change x with
  | Ok y => exists en h', Py.block source (call source n) "__main__" (texts "data" cs) [("data"%string, v)] h = Ret ((en, None), h') /\ assoc "data"%string en = Some v /\
      fresh_tree h0 h' (DatFile_deep y) v /\ (forall i, (i < List.length h0)%nat -> nth_error h' i = nth_error h i)
  | Err e => Py.block source (call source n) "__main__" (texts "data" cs) [("data"%string, v)] h = Raise (Std e)
  end.
Proof.
  intros n h0 h x v cs change N (fp & O & ND & R) CO SC. destruct n as [|n]; [lia|].
  pose proof (changes_run n cs "data" (DatFile_deep x) v fp [("data"%string, v)] h SC O ND eq_refl (data_clear v)) as H. rewrite (CO x) in H. destruct (change x) as [y|e]; cbn [carried] in H; [|exact H].
  destruct H as (en & h' & fp' & E & A & (R1 & R2 & R3 & R4) & L). exists en, h'. split; [exact E|]. split.
  - rewrite A; [reflexivity|]. clear - SC. induction cs as [|c cs IH]; [intros []|]. destruct SC as [S1 S2]. cbn [flat_map]. intros I. apply in_app_or in I as [I|I]; [apply (scoped_free _ _ S1 I)|apply (IH S2 I)].
  - assert (LE : (List.length h0 <= List.length h)%nat) by (apply own_obj in O as (q & vs & fps & _ & _ & -> & _); specialize (R q (or_introl eq_refl)); lia). split.
    + exists fp'. split; [exact R1|]. split; [exact R2|]. intros i I. split; [|apply (own_lt _ _ _ _ R1 i I)]. destruct (R3 i I) as [J|J]; [apply (R i J)|lia].
    + intros i I. apply R4; [lia|]. intros J. specialize (R i J). lia.
Qed.

Section Program.
Variables (inflate : bytes -> res bytes) (deflate : bytes -> bytes) (p q : string) (cs : list PyEdit.change) (change : DatFile -> res DatFile).
Hypothesis quiet : forallb io_free_stmt (texts "data" cs) = true.
Hypothesis free : all_scoped "data" cs.
Hypothesis means : carries_out cs change.
Lemma patch_shape n h : (21 <= n)%nat -> exists k, user_program inflate deflate n h (patch p q (texts "data" cs)) = ReadFile (lit p) k /\ forall c,
  match rbind (rbind (inflate c) from_bytes) (fun x => rbind (change x) to_bytes) with
  | Err e => k c = Stop (Raise (Std e))
  | Ok b => exists h', later h h' /\ k c = WriteFile (lit q) (deflate b) (Stop (Ret (PNone, h')))
  end.
Proof.
  intros N. destruct n as [|[|n]]; [lia..|]. destruct (mod_act inflate deflate p q _ quiet n h) as (k & E & K). exists k. split; [exact E|]. intros c. specialize (K c).
  destruct (inflate c) as [data|e]; cbn [rbind]; [|exact K].
  pose proof (C49_DatFile (S n) h data (PBytes c) (PStr (lit p)) ltac:(lia)) as H. destruct (from_bytes data) as [x|e] eqn:FB; cbn [rbind]; [|rewrite H in K; exact K].
  destruct H as (v & h1 & EL & L1 & FT). rewrite EL in K. pose proof (C55_runs (S (S n)) h h1 x v cs change ltac:(lia) FT means free) as RN. destruct (change x) as [y|e] eqn:CH; cbn [rbind]; [|rewrite RN in K; exact K].
  destruct RN as (en' & h2 & EX & D & FT2 & SAME). rewrite EX in K.
  destruct FT2 as (fp & O & ND & RG). pose proof (own_stands false _ _ _ _ O) as ST. unfold DatFile_deep in O. apply own_obj in O as (l & vs & fps & -> & Q & _ & _).
  rewrite (save_end _ _ _ _ _ _ _ _ D Q) in K. pose proof (save_act inflate deflate n h2 l vs (lit q) Q) as SA.
  destruct (C46_DatFile (S n) h2 y (PRef l) ltac:(lia) ST) as [A _]. unfold agrees in A. unfold to_bytes. destruct (DatFile_to_bytes y UNDEFINED) as [b|e].
  - destruct A as (h3 & E3 & L3). rewrite E3 in SA. rewrite SA in K. exists h3. split; [|exact K]. intros i o I. apply L3. rewrite SAME by apply (nth_lt _ _ _ I). apply L1, I.
  - rewrite A in SA. rewrite SA in K. exact K.
Qed.
End Program.
(** The whole program: what it leaves in [q] is the bytes of the changed record; what it raises is what
    loading, changing or serialising raises. *)
Theorem C55_program : forall inflate deflate n h p q cs change, (21 <= n)%nat ->
  forallb io_free_stmt (texts "data" cs) = true -> all_scoped "data" cs -> carries_out cs change ->
  writes_last deflate (lit p) (lit q) (user_program inflate deflate n h (patch p q (texts "data" cs)))
    (fun f b => new_bytes inflate f (lit p) change = Ok b)
    (fun f e => exists e', e = Std e' /\ new_bytes inflate f (lit p) change = Err e').
Proof.
  intros inflate deflate n h p q cs change N Q SC CO. destruct (patch_shape inflate deflate p q cs change Q SC CO n h N) as (k & E & K). rewrite E. apply shape_writes_last.
  - intros f M. exists FileNotFoundError. split; [reflexivity|]. unfold new_bytes, parse. rewrite M. reflexivity.
  - intros f c C. specialize (K c). unfold new_bytes, parse. rewrite C. destruct (rbind (rbind (inflate c) from_bytes) (fun x => rbind (change x) to_bytes)) as [b|e].
    + destruct K as (h' & _ & K). right. exists b, h'. auto.
    + left. exists (Std e). split; [exact K|]. exists e. auto.
Qed.
(** Unless the operating system fails, it ends. *)
Theorem C55_ends : forall inflate deflate n h p q cs change, (21 <= n)%nat ->
  forallb io_free_stmt (texts "data" cs) = true -> all_scoped "data" cs -> carries_out cs change ->
  ends inflate deflate n h (patch p q (texts "data" cs)).
Proof.
  intros inflate deflate n h p q cs change N Q SC CO f o. destruct (patch_shape inflate deflate p q cs change Q SC CO n h N) as (k & E & K). rewrite E. destruct (f (lit p)) as [c|] eqn:C.
  - assert (R : wreach (ReadFile (lit p) k) f o (mkWorld (Running (k c)) f o)) by (eapply wr_step; [apply wr_start|apply w_read, C]). specialize (K c).
    destruct (rbind (rbind (inflate c) from_bytes) (fun x => rbind (change x) to_bytes)) as [b|e]; [|rewrite K in R; eexists _, _; split; [exact R|reflexivity]].
    destruct K as (h' & _ & K). rewrite K in R.
    assert (R2 := wr_step _ _ _ _ _ R (w_open _ _ _ _ _)). destruct (write_out _ _ _ _ _ _ _ _ R2 (set_same _ _ _)) as (f' & R3 & _).
    eexists _, _. split; [exact R3|reflexivity].
  - eexists _, _. split; [eapply wr_step; [apply wr_start|apply w_missing, C]|reflexivity].
Qed.
(** After it has ended, [q] loads to the changed record, if that is one that survives saving and loading. *)
Theorem C55_loads_back : forall inflate deflate, inverts inflate deflate -> forall n h p q cs change f o s v h' x y, (21 <= n)%nat ->
  forallb io_free_stmt (texts "data" cs) = true -> all_scoped "data" cs -> carries_out cs change ->
  parse inflate f (lit p) = Ok x -> change x = Ok y -> DatFile_wf y ->
  wreach (user_program inflate deflate n h (patch p q (texts "data" cs))) f o s -> w_pc s = Running (Stop (Ret (v, h'))) ->
  parse inflate (w_fs s) (lit q) = Ok y.
Proof.
  intros inflate deflate Z n h p q cs change f o s v h' x y N Q SC CO P CH WF R E. destruct (C55_program inflate deflate n h p q cs change N Q SC CO f o s R) as (_ & _ & H). rewrite E in H.
  destruct H as (_ & b & NB & W). unfold new_bytes in NB. rewrite P in NB. cbn [rbind] in NB. rewrite CH in NB. cbn [rbind] in NB. unfold parse. rewrite W. rewrite Z. cbn [rbind].
  destruct (C01_round_trip y WF) as (b' & TB & FB & _). rewrite TB in NB. injection NB as <-. exact FB.
Qed.

(** ** Cases *)
(** Paths, one step at a time. *)
Lemma edit_of_walk p d0 d1 : forall d, walk p d = Some (Ok d0) -> exists d', edit_at p (fun _ => Some d1) d = Some d'.
Proof.
  induction p as [|s p IH]; intros d W; [exists d1; reflexivity|].
  assert (F : forall b fs d2, assoc b fs = Some d2 -> walk p d2 = Some (Ok d0) -> exists fs', edit_field (edit_at p (fun _ => Some d1)) b fs = Some fs').
  { intros b fs d2. induction fs as [|[y d3] fs IHf]; intros A W2; [discriminate A|]. cbn [assoc edit_field] in *. destruct (String.eqb b y).
    - injection A as ->. destruct (IH d2 W2) as (d' & ->). eexists. reflexivity.
    - destruct (IHf A W2) as (fs' & ->). eexists. reflexivity. }
  assert (G : forall l i d2, nth_error l i = Some d2 -> walk p d2 = Some (Ok d0) -> exists l', edit_item (edit_at p (fun _ => Some d1)) i l = Some l').
  { induction l as [|d3 l IHl]; intros [|i] d2 A W2; try discriminate A; cbn [nth_error edit_item] in *.
    - injection A as ->. destruct (IH d2 W2) as (d' & ->). eexists. reflexivity.
    - destruct (IHl i d2 A W2) as (l' & ->). eexists. reflexivity. }
  destruct s as [b|i]; destruct d as [| | | | | |l|l|c fs| | | | | |]; try discriminate W; cbn [walk edit_at] in *.
  - destruct (assoc b fs) as [d2|] eqn:A; [|discriminate W]. destruct (F b fs d2 A W) as (fs' & ->). eexists. reflexivity.
  - destruct (nth_error l i) as [d2|] eqn:A; [|discriminate W]. destruct (G l i d2 A W) as (l' & ->). eexists. reflexivity.
  - destruct (nth_error l i) as [d2|] eqn:A; [|discriminate W]. destruct (G l i d2 A W) as (l' & ->). eexists. reflexivity.
Qed.
Fixpoint put_field (b : string) (new : deep) (fs : list (string * deep)) : list (string * deep) :=
  match fs with [] => [] | (x, d) :: fs => if String.eqb b x then (x, new) :: fs else (x, d) :: put_field b new fs end.
Lemma at_end_attr b p f c fs : at_end (Attr b :: p) f (DObj c fs) =
  match assoc b fs with None => None | Some d => tbind (at_end p f d) (fun d' => Some (Ok (DObj c (put_field b d' fs)))) end.
Proof.
  unfold at_end. cbn [walk edit_at]. destruct (assoc b fs) as [d|] eqn:A; [|reflexivity]. destruct (walk p d) as [[d0|e]|] eqn:W; cbn [tbind]; [|reflexivity..].
  destruct (f d0) as [[d1|e]|]; cbn [tbind]; [|reflexivity..]. destruct (edit_of_walk p d0 d1 d W) as (d' & E). rewrite E. cbn [option_map tbind].
  assert (X : edit_field (edit_at p (fun _ => Some d1)) b fs = Some (put_field b d' fs)).
  { clear - A E. induction fs as [|[y d3] fs IH]; [discriminate A|]. cbn [assoc edit_field put_field] in *. destruct (String.eqb b y); [injection A as ->; rewrite E; reflexivity|rewrite (IH A); reflexivity]. }
  rewrite X. reflexivity.
Qed.
Lemma at_end_item {A} (D : A -> deep) i p f l : at_end (Item i :: p) f (DList (map D l)) =
  match nth_error l i with None => Some (Err IndexError) | Some a => tbind (at_end p f (D a)) (fun d' => Some (Ok (DList (firstn i (map D l) ++ d' :: skipn (S i) (map D l))))) end.
Proof.
  unfold at_end. cbn [walk edit_at]. rewrite nth_map. destruct (nth_error l i) as [a|] eqn:N; cbn [option_map]; [|reflexivity]. destruct (walk p (D a)) as [[d0|e]|] eqn:W; cbn [tbind]; [|reflexivity..].
  destruct (f d0) as [[d1|e]|]; cbn [tbind]; [|reflexivity..]. destruct (edit_of_walk p d0 d1 (D a) W) as (d' & E). rewrite E. cbn [option_map tbind].
  assert (X : edit_item (edit_at p (fun _ => Some d1)) i (map D l) = Some (firstn i (map D l) ++ d' :: skipn (S i) (map D l))).
  { clear - N E. revert i N. induction l as [|a0 l IH]; intros [|i] N; try discriminate N; cbn [map nth_error edit_item firstn skipn app] in *; [injection N as ->; rewrite E; reflexivity|rewrite (IH i N); reflexivity]. }
  rewrite X. reflexivity.
Qed.
Lemma at_end_tuple {A} (D : A -> deep) i p f l : at_end (Item i :: p) f (DTuple (map D l)) =
  match nth_error l i with None => Some (Err IndexError) | Some a => tbind (at_end p f (D a)) (fun d' => Some (Ok (DTuple (firstn i (map D l) ++ d' :: skipn (S i) (map D l))))) end.
Proof.
  unfold at_end. cbn [walk edit_at]. rewrite nth_map. destruct (nth_error l i) as [a|] eqn:N; cbn [option_map]; [|reflexivity]. destruct (walk p (D a)) as [[d0|e]|] eqn:W; cbn [tbind]; [|reflexivity..].
  destruct (f d0) as [[d1|e]|]; cbn [tbind]; [|reflexivity..]. destruct (edit_of_walk p d0 d1 (D a) W) as (d' & E). rewrite E. cbn [option_map tbind].
  assert (X : edit_item (edit_at p (fun _ => Some d1)) i (map D l) = Some (firstn i (map D l) ++ d' :: skipn (S i) (map D l))).
  { clear - N E. revert i N. induction l as [|a0 l IH]; intros [|i] N; try discriminate N; cbn [map nth_error edit_item firstn skipn app] in *; [injection N as ->; rewrite E; reflexivity|rewrite (IH i N); reflexivity]. }
  rewrite X. reflexivity.
Qed.
Lemma at_end_here f d : at_end [] f d = f d.
Proof. unfold at_end. cbn [walk tbind edit_at]. destruct (f d) as [[d'|e]|]; reflexivity. Qed.
Lemma map_set {A} (D : A -> deep) i a l : firstn i (map D l) ++ D a :: skipn (S i) (map D l) = map D (set_nth i a l).
Proof. unfold set_nth. rewrite firstn_map, skipn_map, map_app. reflexivity. Qed.
(** Loops over lists of records. *)
Lemma each_map {A} (D : A -> deep) (F : deep -> option (res deep)) (g : A -> A) l : (forall a, F (D a) = Some (Ok (D (g a)))) -> each F (map D l) = Some (Ok (map D (map g l))).
Proof. intros H. induction l as [|a l IH]; [reflexivity|]. cbn [map each]. rewrite H. cbn [tbind]. rewrite IH. reflexivity. Qed.

(** The first program of the README carries out [set_cost 22 0 69] (Edit.v). *)
Example C55_case_loom : carries_out [Assign (cost_path 22 0) "amount" (Const (KInt 69))] (set_cost 22 0 69).
Proof.
  intros x. cbn [does_all does value_of const_deep tbind]. unfold cost_path, DatFile_deep at 1. rewrite at_end_attr. cbn [assoc String.eqb Ascii.eqb Bool.eqb]. rewrite at_end_item.
  unfold set_cost, get_nth. destruct (nth_error (DatFile_techs x) 22) as [t|] eqn:T; [|reflexivity]. cbn [rbind]. unfold Tech_deep at 1. rewrite at_end_attr. cbn [assoc String.eqb Ascii.eqb Bool.eqb]. rewrite at_end_tuple.
  destruct (nth_error (M_Tech.Tech_resource_costs t) 0) as [c|] eqn:C; [|reflexivity]. cbn [rbind]. rewrite at_end_here. unfold ResearchResourceCost_deep at 1. cbn [assign assoc String.eqb Ascii.eqb Bool.eqb distinct existsb negb andb orb tbind set_deep map fst snd].
  replace (DObj "ResearchResourceCost" _) with (ResearchResourceCost_deep (with_ResearchResourceCost_amount 69 c)) by (destruct c; reflexivity).
  rewrite (map_set ResearchResourceCost_deep). set (cost := set_nth 0 _ _). cbn [put_field String.eqb Ascii.eqb Bool.eqb tbind].
  match goal with |- context [DObj "Tech" ?fs] => change (DObj "Tech" fs) with (Tech_deep (with_Tech_resource_costs cost t)) || replace (DObj "Tech" fs) with (Tech_deep (with_Tech_resource_costs cost t)) by (destruct t; reflexivity) end.
  cbn [put_field String.eqb Ascii.eqb Bool.eqb tbind]. rewrite (map_set Tech_deep). set (techs := set_nth 22 _ _). f_equal. f_equal. clear. destruct x. reflexivity.
Qed.
(** The second one carries out [pop_tasks 434]. *)
Lemma each_res {A} (D : A -> deep) (F : deep -> option (res deep)) (g : A -> res A) (gs : list A -> res (list A)) : (forall a, F (D a) = Some (match g a with Ok b => Ok (D b) | Err e => Err e end)) ->
  gs [] = Ok [] -> (forall a l, gs (a :: l) = rbind (g a) (fun b => rbind (gs l) (fun r => Ok (b :: r)))) ->
  forall l, each F (map D l) = Some (match gs l with Ok r => Ok (map D r) | Err e => Err e end).
Proof.
  intros H G0 G. induction l as [|a l IH]; [rewrite G0; reflexivity|]. cbn [map each]. rewrite H, G. destruct (g a) as [b|e]; cbn [tbind rbind]; [|reflexivity]. rewrite IH. destruct (gs l) as [r|e]; reflexivity.
Qed.
Lemma edit_at_same p f d0 d1 : f d0 = Some d1 -> forall d, walk p d = Some (Ok d0) -> edit_at p (fun _ => Some d1) d = edit_at p f d.
Proof.
  intros F. induction p as [|s p IH]; intros d W; [cbn [walk] in W; injection W as ->; symmetry; exact F|].
  destruct s as [b|i]; destruct d as [| | | | | |l|l|c fs| | | | | |]; try discriminate W; cbn [walk edit_at] in *; f_equal.
  - destruct (assoc b fs) as [d2|] eqn:A; [|discriminate W]. induction fs as [|[y d3] fs IHf]; [discriminate A|]. cbn [assoc edit_field] in *. destruct (String.eqb b y); [injection A as ->; rewrite (IH _ W); reflexivity|rewrite (IHf A); reflexivity].
  - destruct (nth_error l i) as [d2|] eqn:A; [|discriminate W]. revert i A. induction l as [|d3 l IHl]; intros [|i] A; try discriminate A; cbn [nth_error edit_item] in *; [injection A as ->; rewrite (IH _ W); reflexivity|rewrite (IHl i A); reflexivity].
  - destruct (nth_error l i) as [d2|] eqn:A; [|discriminate W]. revert i A. induction l as [|d3 l IHl]; intros [|i] A; try discriminate A; cbn [nth_error edit_item] in *; [injection A as ->; rewrite (IH _ W); reflexivity|rewrite (IHl i A); reflexivity].
Qed.
Example C55_case_kings : carries_out [Each [Attr "civs"] "civ" [Pop (task_path 434)]] (pop_tasks 434).
Proof.
  intros x. cbn [does_all does tbind]. unfold DatFile_deep at 1. rewrite at_end_attr. cbn [assoc String.eqb Ascii.eqb Bool.eqb]. rewrite at_end_here. cbn [for_each].
  rewrite (each_res Civ_deep _ (pop_task 434) (pop_tasks_of 434)); [|clear x|reflexivity|reflexivity].
  - unfold pop_tasks. destruct (pop_tasks_of 434 (DatFile_civs x)) as [l|e]; cbn [tbind rbind]; [|reflexivity]. cbn [put_field String.eqb Ascii.eqb Bool.eqb]. f_equal. f_equal. clear. destruct x. reflexivity.
  - intros c. transitivity (tbind (at_end (task_path 434) pop_last (Civ_deep c)) (fun d => Some (Ok d))); [reflexivity|].
    unfold at_end. pose proof (walk_tasks 434 c) as W. pose proof (edit_tasks 434 c) as ET. rewrite W. unfold pop_task in *. destruct (get_nth 434 (Civ_units c)) as [o|e]; cbn [rbind] in *; [|reflexivity].
    destruct (the o) as [u|e]; cbn [rbind] in *; [|reflexivity]. destruct (the (Unit_bird u)) as [b|e]; cbn [rbind] in *; [|reflexivity]. cbn [tbind].
    destruct (Bird_tasks b) as [|t ts]; cbn [map pop_last tbind pop rbind] in *; [reflexivity|].
    rewrite (edit_at_same (task_path 434) pop_deep (DList (Task_deep t :: map Task_deep ts)) _ eq_refl _ W). rewrite (ET _ eq_refl). reflexivity.
Qed.
(** A program that doubles the hit points of every unit of every civilisation:
<<
    for civ in data.civs:
        for unit in civ.units:
            if unit is not None:
                unit.hit_points = unit.hit_points * 2
>> *)
Definition twice : list PyEdit.change :=
  [Each [Attr "civs"] "civ" [Each [Attr "units"] "unit" [When (Cmp CIsNot [] KNone) [Assign [] "hit_points" (Arith BMul (Read [Attr "hit_points"]) (Const (KInt 2)))] []]]].
Definition twice_unit (u : Unit) : Unit := with_Unit_hit_points (Unit_hit_points u * 2) u.
Definition twice_civ (c : Civ) : Civ := with_Civ_units (map (option_map twice_unit) (Civ_units c)) c.
Definition twice_file (x : DatFile) : DatFile := with_DatFile_civs (map twice_civ (DatFile_civs x)) x.
Example C55_case_twice : carries_out twice (fun x => Ok (twice_file x)).
Proof.
  intros x. unfold twice. cbn [does_all does tbind]. unfold DatFile_deep at 1. rewrite at_end_attr. cbn [assoc String.eqb Ascii.eqb Bool.eqb]. rewrite at_end_here. cbn [for_each].
  rewrite (each_map Civ_deep _ twice_civ); [|clear x].
  - cbn [tbind put_field String.eqb Ascii.eqb Bool.eqb]. f_equal. f_equal. unfold twice_file. generalize (map twice_civ (DatFile_civs x)). intros l. clear. destruct x. reflexivity.
  - intros c. unfold Civ_deep at 1. rewrite at_end_attr. cbn [assoc String.eqb Ascii.eqb Bool.eqb]. rewrite at_end_here. cbn [for_each].
    rewrite (each_map (emb_opt Unit_deep) _ (option_map twice_unit)); [|clear c].
    + cbn [tbind put_field String.eqb Ascii.eqb Bool.eqb]. unfold twice_civ. generalize (map (option_map twice_unit) (Civ_units c)). intros l. clear. destruct c. reflexivity.
    + intros [u|]; [|reflexivity]. cbn [emb_opt option_map].
      assert (W : walk [Attr "hit_points"] (Unit_deep u) = Some (Ok (DInt (Unit_hit_points u)))) by reflexivity.
      assert (S : assign "hit_points" (DInt (Unit_hit_points u * 2)) (Unit_deep u) = Some (Ok (Unit_deep (twice_unit u)))) by (unfold twice_unit; destruct u; reflexivity).
      cbn [holds_for value_of]. rewrite W. change (walk [] (Unit_deep u)) with (Some (Ok (Unit_deep u))). cbn [tbind]. change (test CIsNot (Unit_deep u) KNone) with (Some true). cbn [option_map tbind arith plain_value const_deep].
      rewrite at_end_here, S. reflexivity.
Qed.
Example C55_case_ready : forallb io_free_stmt (texts "data" twice) = true /\ all_scoped "data" twice.
Proof. split; [reflexivity|]. cbn. intuition (discriminate || auto). Qed.
(** On a file with 435 units it ends, unless the operating system fails, and the same file then loads to
    the record with doubled hit points. *)
Lemma twice_wf : DatFile_wf (twice_file kings_file).
Proof.
  apply (with_civs_wf VER_88); [apply kings_wf|reflexivity| |reflexivity].
  constructor; [|constructor]. split; [vm_compute; reflexivity|]. unfold Civ_shape. unfold twice_civ. cbn [with_Civ_units Civ_units sample_Civ]. rewrite map_app. apply Forall_app. split.
  - apply Forall_forall. intros u I. apply in_map_iff in I as (u0 & <- & I). apply repeat_spec in I as ->. exact Logic.I.
  - constructor; [|constructor]. cbn [option_map on_some]. destruct (sample_Unit_shape VER_88 70) as (H1 & H2 & H3 & H4 & H5 & H6 & H7 & H8 & H9). exact (conj H1 (conj H2 (conj H3 (conj H4 (conj H5 (conj H6 (conj H7 (conj H8 H9)))))))). 
Qed.
Example C55_case_run : forall inflate deflate, inverts inflate deflate -> forall b f o h, to_bytes kings_file = Ok b -> f (lit "a.dat") = Some (deflate b) ->
  exists s v h', wreach (user_program inflate deflate 21 h (patch "a.dat" "a.dat" (texts "data" twice))) f o s /\ w_pc s = Running (Stop (Ret (v, h'))) /\
    parse inflate (w_fs s) (lit "a.dat") = Ok (twice_file kings_file).
Proof.
  intros inflate deflate Z b f o h TB F. destruct C55_case_ready as [Q SC].
  assert (FB : from_bytes b = Ok kings_file) by (destruct (C01_round_trip _ kings_wf) as (b' & TB' & FB' & _); congruence).
  assert (P : parse inflate f (lit "a.dat") = Ok kings_file) by (unfold parse; rewrite F, Z; exact FB).
  destruct (C55_ends inflate deflate 21 h "a.dat" "a.dat" twice _ (le_n _) Q SC C55_case_twice f o) as (s & r & R & E).
  destruct (C55_program inflate deflate 21 h "a.dat" "a.dat" twice _ (le_n _) Q SC C55_case_twice f o s R) as (_ & _ & H). rewrite E in H.
  destruct r as [[v h']|e].
  - exists s, v, h'. split; [exact R|]. split; [exact E|].
    apply (C55_loads_back inflate deflate Z 21 h "a.dat" "a.dat" twice _ f o s v h' kings_file (twice_file kings_file) (le_n _) Q SC C55_case_twice P eq_refl twice_wf R E).
  - exfalso. destruct H as (_ & e' & _ & H). unfold new_bytes in H. rewrite P in H. cbn [rbind] in H. destruct (C01_round_trip _ twice_wf) as (b' & TB' & _). congruence.
Qed.
Example C55_case_changed : twice_file kings_file <> kings_file.
Proof.
  intros E. assert (X : map (fun c => map (option_map Unit_hit_points) (skipn 434 (Civ_units c))) (DatFile_civs (twice_file kings_file)) = map (fun c => map (option_map Unit_hit_points) (skipn 434 (Civ_units c))) (DatFile_civs kings_file)) by (rewrite E; reflexivity).
  vm_compute in X. discriminate X.
Qed.

(** Local names and conditions: every unit that can be trained becomes a hero.
<<
    for civ in data.civs:
        for unit in civ.units:
            if unit is not None and unit.creatable and not unit.creatable.hero_mode > 0:
                made = unit.creatable
                made.hero_mode = 1
>> *)
Definition heroes : list PyEdit.change :=
  [Each [Attr "civs"] "civ" [Each [Attr "units"] "unit"
    [When (Both (Both (Cmp CIsNot [] KNone) (Truth [Attr "creatable"])) (Not (Cmp CGt [Attr "creatable"; Attr "hero_mode"] (KInt 0))))
       [Local [Attr "creatable"] "made" [Assign [] "hero_mode" (Const (KInt 1))]] []]]].
Definition hero_unit (u : Unit) : Unit :=
  match Unit_creatable u with
  | Some c => if 0 <? Creatable_hero_mode c then u else with_Unit_creatable (Some (with_Creatable_hero_mode 1 c)) u
  | None => u
  end.
Definition hero_civ (c : Civ) : Civ := with_Civ_units (map (option_map hero_unit) (Civ_units c)) c.
Definition hero_file (x : DatFile) : DatFile := with_DatFile_civs (map hero_civ (DatFile_civs x)) x.
Example C55_case_heroes : carries_out heroes (fun x => Ok (hero_file x)) /\ forallb io_free_stmt (texts "data" heroes) = true /\ all_scoped "data" heroes.
Proof.
  split; [|split; [reflexivity|cbn; intuition (discriminate || auto)]].
  intros x. unfold heroes. cbn [does_all does tbind]. unfold DatFile_deep at 1. rewrite at_end_attr. cbn [assoc String.eqb Ascii.eqb Bool.eqb]. rewrite at_end_here. cbn [for_each].
  rewrite (each_map Civ_deep _ hero_civ); [|clear x].
  - cbn [tbind put_field String.eqb Ascii.eqb Bool.eqb]. f_equal. f_equal. unfold hero_file. generalize (map hero_civ (DatFile_civs x)). intros l. clear. destruct x. reflexivity.
  - intros c. unfold Civ_deep at 1. rewrite at_end_attr. cbn [assoc String.eqb Ascii.eqb Bool.eqb]. rewrite at_end_here. cbn [for_each].
    rewrite (each_map (emb_opt Unit_deep) _ (option_map hero_unit)); [|clear c].
    + cbn [tbind put_field String.eqb Ascii.eqb Bool.eqb]. unfold hero_civ. generalize (map (option_map hero_unit) (Civ_units c)). intros l. clear. destruct c. reflexivity.
    + intros [u|]; [|reflexivity]. cbn [emb_opt option_map].
      assert (W : walk [Attr "creatable"] (Unit_deep u) = Some (Ok (emb_opt Creatable_deep (Unit_creatable u)))) by reflexivity.
      cbn [holds_for]. change (walk [] (Unit_deep u)) with (Some (Ok (Unit_deep u))). cbn [tbind]. change (test CIsNot (Unit_deep u) KNone) with (Some true). cbn [option_map tbind]. rewrite W. cbn [tbind].
      unfold hero_unit. destruct (Unit_creatable u) as [c|] eqn:C; cbn [emb_opt] in *; [|reflexivity].
      change (truth (Creatable_deep c)) with (Some true). cbn [option_map tbind].
      assert (W2 : walk [Attr "creatable"; Attr "hero_mode"] (Unit_deep u) = Some (Ok (DInt (Creatable_hero_mode c)))).
      { transitivity (walk [Attr "hero_mode"] (emb_opt Creatable_deep (Unit_creatable u))); [reflexivity|]. rewrite C. reflexivity. }
      rewrite W2. cbn [tbind test option_map]. destruct (0 <? Creatable_hero_mode c); cbn [negb]; [reflexivity|].
      unfold at_end. rewrite W. cbn [tbind value_of const_deep]. change (walk [] (Creatable_deep c)) with (Some (Ok (Creatable_deep c))). cbn [tbind].
      assert (AS : assign "hero_mode" (DInt 1) (Creatable_deep c) = Some (Ok (Creatable_deep (with_Creatable_hero_mode 1 c)))) by (clear; destruct c; reflexivity).
      rewrite AS. cbn [tbind option_map edit_at]. generalize (with_Creatable_hero_mode 1 c). intros c'. clear. destruct u. reflexivity.
Qed.

Definition all_of_this_file := (C55_any, C55_kinds, C55_runs, C55_program, C55_ends, C55_loads_back).
Print Assumptions all_of_this_file.
