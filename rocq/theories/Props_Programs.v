(** * C53: the example programs of the README, as written, run on loaded files.

    [readme_1] and [readme_2] (Source.v) are printed by tools/gen_src.py from README.md. *)
From Verif Require Import Base PyInt PyFloat PyStr PyStruct DataTypes Versions Common Py Source PyRep PyPure PyPureSim PyW PyWE Deep PyWC PyWS PyWD.
From Verif Require Import M_Sound M_PlayerColour M_Effect M_TerrainRestriction M_Graphic
  M_TerrainBlock M_RandomMaps M_Task M_UnitHeaders M_Unit M_Civ M_Tech M_TechTree M_DatFile.
From Verif Require Import Spec Shape Update Edit EditP Sample Props_Dat Props_Source.
From Verif Require Import Theory ConvertE Props_Convert Props_Readme.
From Verif Require Import PyR PyRE PyRH PyRC PyRT PyRU PyTree PyLoad Props_Load.
From Coq Require Import String Ascii Lia.
Open Scope Z_scope.
Local Open Scope list_scope.

(** The program without [data = DatFile.parse(...)] at its beginning and [data.save(...)] at its end. *)
Definition middle (l : list stmt) : list stmt := removelast (tl l).
Definition user_run (n : nat) (h : heap) (data : val) (l : list stmt) : outcome (val * heap) := run n "__main__" l [("data"%string, data)] h.
Example readme_1_begins : hd_error readme_1 = Some (SAssign "data" (ECall (EAttr (EName "DatFile") "parse") [EConst (KStr "path/to/empires2_x2_p1.dat")])) /\
  last readme_1 (SRaise ValueError) = SExpr (ECall (EAttr (EName "data") "save") [EConst (KStr "path/to/modded/empires2_x2_p1.dat")]).
Proof. split; reflexivity. Qed.
Example readme_2_begins : hd_error readme_2 = Some (SAssign "data" (ECall (EAttr (EName "DatFile") "parse") [EConst (KStr "path/to/empires2_x2_p1.dat")])) /\
  last readme_2 (SRaise ValueError) = SExpr (ECall (EAttr (EName "data") "save") [EConst (KStr "path/to/modded/empires2_x2_p1.dat")]).
Proof. split; reflexivity. Qed.

(** ** Looking things up *)
(** What [x.p] is: a tree, or an exception. *)
Fixpoint walk (p : list hop) (d : deep) : option (res deep) :=
  match p, d with
  | [], d => Some (Ok d)
  | Attr b :: p, DObj c fs => match assoc b fs with Some d => walk p d | None => None end
  | Attr b :: p, DNone => Some (Err AttributeError)
  | Item i :: p, (DList l | DTuple l) => match nth_error l i with Some d => walk p d | None => Some (Err IndexError) end
  | _, _ => None
  end.
Lemma path_text_raise cl md en h p : forall e f, eval source cl md en e h = Raise f -> eval source cl md en (path_text e p) h = Raise f.
Proof.
  induction p as [|[a|i] p IH]; intros e f E; cbn [path_text]; [exact E| |]; apply IH; cbn [eval]; unfold mbind at 1; rewrite E; reflexivity.
Qed.
Lemma path_text_app e p r : path_text e (p ++ r) = path_text (path_text e p) r.
Proof. revert e. induction p as [|[a|i] p IH]; intros e; cbn [app path_text]; [reflexivity|apply IH..]. Qed.
Lemma owns_nth h l vs fps i : owns h l vs fps -> match nth_error l i with Some d => exists w fp, nth_error vs i = Some w /\ own h d w fp | None => nth_error vs i = None end.
Proof.
  intros O. revert i. induction O as [|d v fp l vs fps H O IH]; intros [|i]; cbn [nth_error]; try reflexivity; [exists v, fp; split; [reflexivity|exact H]|apply IH].
Qed.
Lemma ownf_get h l vs fps a d : ownf h l vs fps -> assoc a l = Some d -> exists w fp, assoc a vs = Some w /\ own h d w fp.
Proof.
  intros O. induction O as [|x d0 v fp l vs fps H O IH]; intros E; [discriminate E|]. cbn [assoc] in *. destruct (String.eqb a x); [injection E as <-; exists v, fp; split; [reflexivity|exact H]|apply IH, E].
Qed.
Lemma index_missing {A} (l : list A) i h : nth_error l i = None -> index_of l (Z.of_nat i) h = Raise (Std IndexError).
Proof.
  intros N. apply nth_error_None in N. unfold index_of, len. replace (Z.of_nat i <? 0) with false by (symmetry; apply Z.ltb_ge; lia). cbv iota.
  replace (Z.of_nat (List.length l) <=? Z.of_nat i) with true by (symmetry; apply Z.leb_le; lia). rewrite orb_true_r. reflexivity.
Qed.
Lemma eval_walk cl md en h p : forall d v fp e r, own h d v fp -> eval source cl md en e h = Ret (v, h) -> walk p d = Some r ->
  match r with
  | Ok d' => exists w fp', eval source cl md en (path_text e p) h = Ret (w, h) /\ follow h v p = Some w /\ own h d' w fp'
  | Err f => eval source cl md en (path_text e p) h = Raise (Std f)
  end.
Proof.
  induction p as [|s p IH]; intros d v fp e r O E W.
  - cbn [walk] in W. injection W as <-. exists v, fp. split; [exact E|]. split; [reflexivity|exact O].
  - assert (STEP : forall u d1 fp1, hop_to h v s = Some u -> own h d1 u fp1 -> walk p d1 = Some r ->
      match r with
      | Ok d' => exists w fp', eval source cl md en (path_text e (s :: p)) h = Ret (w, h) /\ follow h v (s :: p) = Some w /\ own h d' w fp'
      | Err f => eval source cl md en (path_text e (s :: p)) h = Raise (Std f)
      end).
    { intros u d1 fp1 HU O1 W1. change (s :: p) with ([s] ++ p). rewrite path_text_app. pose proof (IH d1 u fp1 (path_text e [s]) r O1) as X.
      assert (EU : eval source cl md en (path_text e [s]) h = Ret (u, h)) by (eapply eval_path; [exact E|cbn [follow]; rewrite HU; reflexivity]).
      specialize (X EU W1). cbn [app follow]. rewrite HU. exact X. }
    destruct s as [b|i]; destruct d as [| | | | | |l|l|c fs| | | | | |]; try discriminate W; cbn [walk] in W.
    + injection W as <-. cbn [own] in O. destruct O as [-> _]. cbn [path_text]. apply path_text_raise. cbn [eval]. unfold mbind at 1. rewrite E. reflexivity.
    + apply own_obj in O as (q & vs & fps & -> & Q & -> & O). destruct (assoc b fs) as [d1|] eqn:A; [|discriminate W]. destruct (ownf_get _ _ _ _ _ _ O A) as (w & fp' & W1 & OW).
      apply (STEP w d1 fp'); [cbn [hop_to]; rewrite Q; exact W1|exact OW|exact W].
    + apply own_list in O as (q & vs & fps & -> & Q & -> & O). pose proof (owns_nth _ _ _ _ i O) as X. destruct (nth_error l i) as [d1|].
      * destruct X as (w & fp' & W1 & OW). apply (STEP w d1 fp'); [cbn [hop_to]; rewrite Q; exact W1|exact OW|exact W].
      * injection W as <-. cbn [path_text]. apply path_text_raise. cbn [eval]. unfold mbind at 1. rewrite E. unfold mbind at 1, mret at 1. cbn [const_val].
        unfold get_item, mbind, get_obj. rewrite Q. cbn [mopt]. unfold mret at 1, need_int. cbn [as_int mopt]. unfold mret. apply index_missing, X.
    + apply own_tuple in O as (vs & fps & -> & -> & O). pose proof (owns_nth _ _ _ _ i O) as X. destruct (nth_error l i) as [d1|].
      * destruct X as (w & fp' & W1 & OW). apply (STEP w d1 fp'); [cbn [hop_to]; exact W1|exact OW|exact W].
      * injection W as <-. cbn [path_text]. apply path_text_raise. cbn [eval]. unfold mbind at 1. rewrite E. unfold mbind at 1, mret at 1. cbn [const_val].
        unfold get_item, mbind, need_int. cbn [as_int mopt]. unfold mret. apply index_missing, X.
Qed.
(** Reading [dat.p]. *)
Theorem C53_read : forall n h0 h d v p r, fresh_tree h0 h d v -> walk p d = Some r ->
  let o := eval source (call source n) "__main__" [("dat"%string, v)] (path_text (EName "dat") p) h in
  match r with
  | Ok d' => exists w, o = Ret (w, h) /\ stands false h d' w
  | Err f => o = Raise (Std f)
  end.
Proof.
  intros n h0 h d v p r (fp & O & _) W o. pose proof (eval_walk (call source n) "__main__" [("dat"%string, v)] h p d v fp (EName "dat") r O) as X.
  specialize (X (p_name n "__main__" [("dat"%string, v)] "dat" v eq_refl h) W). fold o in X. destruct r as [d'|f]; [|exact X].
  destruct X as (w & fp' & E & _ & OW). exists w. split; [exact E|]. apply (own_stands _ _ _ _ _ OW).
Qed.

(** ** The first program *)
Lemma edit_item_map {A} (D : A -> deep) f i : forall l t t', nth_error l i = Some t -> f (D t) = Some (D t') -> edit_item f i (map D l) = Some (map D (set_nth i t' l)).
Proof.
  induction i as [|i IH]; intros [|x l] t t' N E; try discriminate N; cbn [nth_error map edit_item] in *.
  - injection N as ->. rewrite E. reflexivity.
  - rewrite (IH l t t' N E). reflexivity.
Qed.
Lemma nth_map {A B} (D : A -> B) l i : nth_error (map D l) i = option_map D (nth_error l i).
Proof. revert i. induction l as [|x l IH]; intros [|i]; cbn [map nth_error option_map]; try reflexivity. apply IH. Qed.
Definition cost_path (i j : nat) : list hop := [Attr "techs"; Item i; Attr "resource_costs"; Item j].
Lemma edit_cost i j a x y : set_cost i j a x = Ok y -> edit (cost_path i j) "amount" (DInt a) (DatFile_deep x) = Some (DatFile_deep y).
Proof.
  unfold set_cost, get_nth. destruct (nth_error (DatFile_techs x) i) as [t|] eqn:T; [|discriminate]. cbn [rbind].
  destruct (nth_error (Tech_resource_costs t) j) as [c|] eqn:C; [|discriminate]. cbn [rbind]. intros E. 
  set (c' := with_ResearchResourceCost_amount a c) in *. set (t' := with_Tech_resource_costs _ t) in *.
  assert (EC : edit_at [] (set_to "amount" (DInt a)) (ResearchResourceCost_deep c) = Some (ResearchResourceCost_deep c')) by (unfold c'; destruct c; reflexivity).
  assert (ET : edit_at [Attr "resource_costs"; Item j] (set_to "amount" (DInt a)) (Tech_deep t) = Some (Tech_deep t')).
  { pose proof (edit_item_map ResearchResourceCost_deep _ j _ c c' C EC) as X. 
    unfold Tech_deep at 1. cbn [edit_at edit_field String.eqb Ascii.eqb Bool.eqb option_map]. cbn [edit_at] in X. rewrite X. unfold t'. generalize (set_nth j c' (Tech_resource_costs t)). clear. destruct t. reflexivity. }
  injection E as <-. pose proof (edit_item_map Tech_deep _ i _ t t' T ET) as X. unfold edit, cost_path.
  unfold DatFile_deep at 1. cbn [edit_at edit_field String.eqb Ascii.eqb Bool.eqb option_map]. cbn [edit_at] in X. rewrite X. generalize (set_nth i t' (DatFile_techs x)). clear. destruct x. reflexivity.
Qed.
Lemma walk_cost i j x : walk (cost_path i j) (DatFile_deep x) =
  Some (match nth_error (DatFile_techs x) i with
        | Some t => match nth_error (Tech_resource_costs t) j with Some c => Ok (ResearchResourceCost_deep c) | None => Err IndexError end
        | None => Err IndexError
        end).
Proof.
  unfold cost_path, DatFile_deep. cbn [walk assoc String.eqb Ascii.eqb Bool.eqb]. rewrite nth_map. destruct (nth_error (DatFile_techs x) i) as [t|]; [|reflexivity].
  cbn [option_map]. unfold Tech_deep. cbn [walk assoc String.eqb Ascii.eqb Bool.eqb]. rewrite nth_map. destruct (nth_error (Tech_resource_costs t) j); reflexivity.
Qed.
(** README.md:37 as written does what [set_cost 22 0 69] says, and raises what it says. *)
Theorem C53_loom : forall n h0 h x v, fresh_tree h0 h (DatFile_deep x) v ->
  match set_cost 22 0 69 x with
  | Ok y => exists q h', user_run n h v (middle readme_1) = Ret (PNone, h') /\ fresh_tree h0 h' (DatFile_deep y) v /\
      follow h v (cost_path 22 0) = Some (PRef q) /\ (forall i, i <> q -> nth_error h' i = nth_error h i)
  | Err e => user_run n h v (middle readme_1) = Raise (Std e)
  end.
Proof.
  intros n h0 h x v FT. unfold user_run.
  change (middle readme_1) with [SSetAttr (path_text (EName "data") (cost_path 22 0)) "amount" (EConst (KInt 69))].
  destruct (set_cost 22 0 69 x) as [y|e] eqn:E.
  - pose proof (edit_cost _ _ _ _ _ E) as ED. destruct FT as (fp & O & ND & R).
    destruct (own_edit h "amount" (DInt 69) (PInt 69) _ _ v fp _ (fun _ => conj eq_refl eq_refl) O ND ED) as (q & o & o' & fp' & F & Q & U & I & O' & N' & I').
    destruct o as [|c fs]; [discriminate U|]. cbn [upd_set] in U. destruct (assoc "amount" fs) as [w0|] eqn:A; [|discriminate U]. injection U as <-.
    exists q, (put h q (OInst c (set_field fs "amount" (PInt 69)))). split.
    + erewrite run_set_ret; [reflexivity|apply p_const|eapply eval_path; [apply p_name; reflexivity|exact F]|eapply set_run; eassumption].
    + split; [|split; [exact F|intros i NI; apply put_other, NI]]. exists fp'. split; [exact O'|]. split; [exact N'|]. intros i J. rewrite put_length. apply R, I', J.
  - destruct FT as (fp & O & _). rewrite run_set. erewrite mbind_ret; [|apply p_const].
    pose proof (eval_walk (call source n) "__main__" [("data"%string, v)] h (cost_path 22 0) _ v fp (EName "data") _ O (p_name n "__main__" [("data"%string, v)] "data" v eq_refl h) (walk_cost 22 0 x)) as X.
    unfold set_cost, get_nth in E. destruct (nth_error (DatFile_techs x) 22) as [t|]; cbn [rbind] in E.
    + destruct (nth_error (Tech_resource_costs t) 0) as [c|]; cbn [rbind] in E; [discriminate E|]. injection E as <-. unfold mbind. rewrite X. reflexivity.
    + injection E as <-. unfold mbind. rewrite X. reflexivity.
Qed.

(** ** The second program *)
Definition task_path (k : nat) : list hop := [Attr "units"; Item k; Attr "bird"; Attr "tasks"].
Lemma edit_tasks k c c' : pop_task k c = Ok c' -> edit_at (task_path k) pop_deep (Civ_deep c) = Some (Civ_deep c').
Proof.
  unfold pop_task, get_nth. destruct (nth_error (Civ_units c) k) as [o|] eqn:K; [|discriminate]. cbn [rbind]. destruct o as [u|]; [|discriminate]. cbn [rbind the].
  destruct (Unit_bird u) as [b|] eqn:B; [|discriminate]. cbn [rbind the]. destruct (Bird_tasks b) as [|t0 ts] eqn:T; [discriminate|]. cbn [rbind pop]. 
  set (b' := with_Bird_tasks (removelast (t0 :: ts)) b). set (u' := with_Unit_bird (Some b') u). intros E.
  assert (EC : c' = with_Civ_units (set_nth k (Some u') (Civ_units c)) c) by congruence. rewrite EC. clear E EC.
  assert (EB : edit_at [Attr "tasks"] pop_deep (Bird_deep b) = Some (Bird_deep b')).
  { unfold Bird_deep at 1. cbn [edit_at edit_field String.eqb Ascii.eqb Bool.eqb option_map]. rewrite T. cbn [map pop_deep option_map].
    replace (removelast (Task_deep t0 :: map Task_deep ts)) with (map Task_deep (removelast (t0 :: ts))).
    2:{ clear. revert t0. induction ts as [|t ts IH]; intros t0; [reflexivity|]. change (removelast (t0 :: t :: ts)) with (t0 :: removelast (t :: ts)). cbn [map].
        rewrite IH. reflexivity. }
    unfold b'. generalize (removelast (t0 :: ts)). clear. destruct b. reflexivity. }
  assert (EU : edit_at [Attr "bird"; Attr "tasks"] pop_deep (emb_opt Unit_deep (Some u)) = Some (emb_opt Unit_deep (Some u'))).
  { cbn [emb_opt]. unfold Unit_deep at 1. cbn [edit_at edit_field String.eqb Ascii.eqb Bool.eqb option_map]. rewrite B. cbn [emb_opt]. cbn [edit_at] in EB. rewrite EB.
    unfold u'. clear. destruct u. reflexivity. }
  pose proof (edit_item_map (emb_opt Unit_deep) _ k _ (Some u) (Some u') K EU) as X. unfold task_path, Civ_deep at 1. cbn [edit_at edit_field String.eqb Ascii.eqb Bool.eqb option_map].
  cbn [edit_at] in X. rewrite X. generalize (set_nth k (Some u') (Civ_units c)). clear. destruct c. reflexivity.
Qed.
Lemma walk_tasks k c : walk (task_path k) (Civ_deep c) =
  Some (rbind (get_nth k (Civ_units c)) (fun slot => rbind (the slot) (fun u => rbind (the (Unit_bird u)) (fun b => Ok (DList (map Task_deep (Bird_tasks b))))))).
Proof.
  unfold task_path, Civ_deep, get_nth. cbn [walk assoc String.eqb Ascii.eqb Bool.eqb]. rewrite nth_map. destruct (nth_error (Civ_units c) k) as [[u|]|]; [|reflexivity..].
  cbn [option_map emb_opt rbind the]. unfold Unit_deep. cbn [walk assoc String.eqb Ascii.eqb Bool.eqb]. destruct (Unit_bird u) as [b|]; reflexivity.
Qed.
(** [e.pop()] *)
Lemma eval_pop n md en e q vs h : eval source (call source (S n)) md en e h = Ret (PRef q, h) -> nth_error h q = Some (OList vs) ->
  eval source (call source (S n)) md en (ECall (EAttr e "pop") []) h =
  match vs with [] => Raise (Std IndexError) | w :: ws => Ret (last ws w, put h q (OList (removelast (w :: ws)))) end.
Proof.
  intros E Q. rewrite eval_call. erewrite mbind_ret.
  2:{ cbn [eval]. rewrite (mbind_ret _ _ _ _ _ E). unfold attr, mbind, get_obj. rewrite Q. cbn [mopt]. unfold mret. cbn [String.eqb Ascii.eqb Bool.eqb orb]. reflexivity. }
  change (argv (S n) md en []) with (@mret (list val * list (string * val)) ([], [])). unfold mbind at 1, mret at 1. cbn [fst snd call]. unfold mbind at 1, get_obj at 1. rewrite Q. cbn [mopt]. unfold mret at 1.
  unfold builtin. cbn [String.eqb Ascii.eqb Bool.eqb]. unfold mbind at 1, get_obj at 1. rewrite Q. cbn [mopt]. unfold mret at 1. destruct vs as [|w ws]; reflexivity.
Qed.
Definition pop_stmt (k : nat) : stmt := SExpr (ECall (EAttr (path_text (EName "civ") (task_path k)) "pop") []).
Definition civ_loop (n k : nat) : list val -> env -> M (env * option val) :=
  fix go (l : list val) (en : env) : M (env * option val) :=
    match l with
    | [] => mret (en, None)
    | v :: l => r <~ block source (call source n) "__main__" [pop_stmt k] (("civ"%string, v) :: en) ;; match snd r with Some _ => mret r | None => go l (fst r) end
    end.
Lemma pop_one n k c v fp h en : own h (Civ_deep c) v fp -> NoDup fp ->
  match pop_task k c with
  | Ok c' => exists q o' fp', block source (call source (S n)) "__main__" [pop_stmt k] (("civ"%string, v) :: en) h = Ret ((("civ"%string, v) :: en, None), put h q o') /\
      In q fp /\ own (put h q o') (Civ_deep c') v fp' /\ NoDup fp' /\ incl fp' fp
  | Err e => block source (call source (S n)) "__main__" [pop_stmt k] (("civ"%string, v) :: en) h = Raise (Std e)
  end.
Proof.
  intros O ND. pose proof (eval_walk (call source (S n)) "__main__" (("civ"%string, v) :: en) h (task_path k) _ v fp (EName "civ") _ O (p_name (S n) "__main__" (("civ"%string, v) :: en) "civ" v eq_refl h) (walk_tasks k c)) as X.
  assert (BL : forall r, eval source (call source (S n)) "__main__" (("civ"%string, v) :: en) (ECall (EAttr (path_text (EName "civ") (task_path k)) "pop") []) h = r ->
    block source (call source (S n)) "__main__" [pop_stmt k] (("civ"%string, v) :: en) h = match r with Ret (_, h') => Ret ((("civ"%string, v) :: en, None), h') | Raise f => Raise f end).
  { intros r E. rewrite block_cons. unfold pop_stmt. cbn [exec]. unfold mbind. rewrite E. destruct r as [[w h']|f]; reflexivity. }
  destruct (pop_task k c) as [c'|e] eqn:E.
  - pose proof (edit_tasks k c c' E) as ED. destruct (own_edit_at h upd_pop pop_deep (own_pop h) _ _ v fp _ O ND ED) as (q & o & o' & fp' & F & Q & U & I & O' & N' & I').
    destruct o as [[|w ws]|]; try discriminate U. cbn [upd_pop] in U. injection U as <-.
    eexists q, _, fp'. split; [|split; [exact I|split; [exact O'|split; [exact N'|exact I']]]].
    erewrite BL; [|eapply eval_pop; [eapply eval_path; [apply p_name; reflexivity|exact F]|exact Q]]. reflexivity.
  - unfold pop_task in E. destruct (get_nth k (Civ_units c)) as [slot|e1]; cbn [rbind] in E, X.
    2:{ injection E as ->. erewrite BL; [|rewrite eval_call; unfold mbind at 1; cbn [eval]; unfold mbind at 1; rewrite X; reflexivity]. reflexivity. }
    destruct (the slot) as [u|e1]; cbn [rbind] in E, X.
    2:{ injection E as ->. erewrite BL; [|rewrite eval_call; unfold mbind at 1; cbn [eval]; unfold mbind at 1; rewrite X; reflexivity]. reflexivity. }
    destruct (the (Unit_bird u)) as [b|e1]; cbn [rbind] in E, X.
    2:{ injection E as ->. erewrite BL; [|rewrite eval_call; unfold mbind at 1; cbn [eval]; unfold mbind at 1; rewrite X; reflexivity]. reflexivity. }
    destruct (Bird_tasks b) as [|t ts]; [|discriminate E]. cbn [pop rbind] in E. injection E as <-. destruct X as (w & fp' & EW & _ & OW).
    apply own_list in OW as (q & vs & fps & -> & Q & _ & OO). inversion OO; subst. erewrite BL; [|eapply eval_pop; [exact EW|exact Q]]. reflexivity.
Qed.
Lemma loop_runs n k : forall l vs fps h en, owns h (map Civ_deep l) vs fps -> NoDup (List.concat fps) ->
  match pop_tasks_of k l with
  | Ok l' => exists en' h' fps', civ_loop (S n) k vs en h = Ret ((en', None), h') /\ owns h' (map Civ_deep l') vs fps' /\ NoDup (List.concat fps') /\ incl (List.concat fps') (List.concat fps) /\
      List.length h' = List.length h /\ forall i, ~ In i (List.concat fps) -> nth_error h' i = nth_error h i
  | Err e => civ_loop (S n) k vs en h = Raise (Std e)
  end.
Proof.
  induction l as [|c l IH]; intros vs fps h en O ND; cbn [map] in O; inversion O as [|d v fp ds vs' fps' OC OO]; subst; cbn [pop_tasks_of].
  - exists en, h, []. split; [reflexivity|]. split; [constructor|]. split; [constructor|]. split; [apply incl_refl|]. split; reflexivity.
  - cbn [List.concat] in ND. apply nodup_app in ND as (N1 & N2 & D). pose proof (pop_one n k c v fp h en OC N1) as X. cbn [civ_loop]. destruct (pop_task k c) as [c'|e]; cbn [rbind].
    + destruct X as (q & o' & fp' & E1 & I1 & OC' & ND' & IN'). rewrite (mbind_ret _ _ _ _ _ E1). cbn [snd fst]. fold (civ_loop (S n) k).
      assert (OO' : owns (put h q o') (map Civ_deep l) vs' fps') by (apply (owns_keeps h); [apply keeps_put; intros J; apply (D _ I1 J)|exact OO]).
      specialize (IH vs' fps' (put h q o') (("civ"%string, v) :: en) OO' N2). destruct (pop_tasks_of k l) as [l'|e]; cbn [rbind]; [|exact IH].
      destruct IH as (en' & h' & fps2 & E2 & O2 & ND2 & IN2 & L2 & S2). exists en', h', (fp' :: fps2). split; [exact E2|]. cbn [map List.concat].
      assert (K : keeps fp' (put h q o') h') by (intros i I; apply S2; intros J; apply (D i (IN' i I) J)).
      split; [constructor; [apply (own_keeps (put h q o')); [exact K|exact OC']|exact O2]|].
      split; [apply app_nodup; [exact ND'|exact ND2|intros i I J; apply (D i (IN' _ I) (IN2 _ J))]|]. split; [apply incl_app; [apply incl_appl, IN'|apply incl_appr, IN2]|].
      split; [rewrite L2; apply put_length|]. intros i NI. rewrite S2 by (intros J; apply NI, in_or_app; right; exact J). apply put_other. intros ->. apply NI, in_or_app. left. exact I1.
    + unfold mbind. rewrite X. reflexivity.
Qed.
(** The list of an attribute, changed in place. *)
Lemma ownf_list h b l : forall fs vs fps, ownf h fs vs fps -> NoDup (List.concat fps) -> assoc b fs = Some (DList l) -> exists q ws gs,
  assoc b vs = Some (PRef q) /\ nth_error h q = Some (OList ws) /\ owns h l ws gs /\ NoDup (List.concat gs) /\ ~ In q (List.concat gs) /\ In q (List.concat fps) /\ incl (List.concat gs) (List.concat fps) /\
  forall h' l' gs', owns h' l' ws gs' -> NoDup (List.concat gs') -> incl (List.concat gs') (List.concat gs) -> (forall i, ~ In i (List.concat gs) -> nth_error h' i = nth_error h i) ->
    exists fs' fps', edit_field (fun _ => Some (DList l')) b fs = Some fs' /\ ownf h' fs' vs fps' /\ NoDup (List.concat fps') /\ incl (List.concat fps') (List.concat fps).
Proof.
  intros fs vs fps O. induction O as [|x d v fp fs vs fps H O IH]; intros ND A; [discriminate A|]. cbn [assoc] in A. cbn [List.concat] in ND. apply nodup_app in ND as (N1 & N2 & D).
  cbn [assoc edit_field List.concat]. destruct (String.eqb b x).
  - injection A as ->. apply own_list in H as (q & ws & gs & -> & Q & -> & OW). inversion N1 as [|y z Q1 N1']; subst. exists q, ws, gs. split; [reflexivity|]. split; [exact Q|]. split; [exact OW|].
    split; [exact N1'|]. split; [exact Q1|]. split; [left; reflexivity|]. split; [intros i I; right; apply in_or_app; left; exact I|]. intros h' l' gs' O' ND' IN' SAME.
    eexists _, ((q :: List.concat gs') :: fps). split; [reflexivity|]. split.
    + constructor; [apply own_list; exists q, ws, gs'; split; [reflexivity|]; split; [rewrite SAME by exact Q1; exact Q|]; split; [reflexivity|exact O']|].
      apply (ownf_keep h); [|exact O]. intros i I. apply SAME. intros J. apply (D i (or_intror J) I).
    + cbn [List.concat]. split; [apply app_nodup; [constructor; [intros J; apply Q1, IN', J|exact ND']|exact N2|intros i [<-|I] J; [apply (D q (or_introl eq_refl) J)|apply (D i (or_intror (IN' i I)) J)]]|].
      apply incl_app; [|apply incl_appr, incl_refl]. apply incl_appl. intros i [<-|I]; [left; reflexivity|right; apply IN', I].
  - destruct (IH N2 A) as (q & ws & gs & E1 & E2 & E3 & E4 & E5 & E6 & E7 & E8). exists q, ws, gs. split; [exact E1|]. split; [exact E2|]. split; [exact E3|]. split; [exact E4|]. split; [exact E5|].
    split; [apply in_or_app; right; exact E6|]. split; [apply incl_appr, E7|]. intros h' l' gs' O' ND' IN' SAME. destruct (E8 h' l' gs' O' ND' IN' SAME) as (fs' & fps' & F1 & F2 & F3 & F4).
    exists ((x, d) :: fs'), (fp :: fps'). rewrite F1. split; [reflexivity|]. split.
    + constructor; [|exact F2]. apply (own_keeps h); [|exact H]. intros i I. apply SAME. intros J. apply (D i I (E7 _ J)).
    + cbn [List.concat]. split; [apply app_nodup; [exact N1|exact F3|intros i I J; apply (D i I (F4 _ J))]|]. apply incl_app; [apply incl_appl, incl_refl|apply incl_appr, F4].
Qed.
(** README.md:47-48 as written does what [pop_tasks 434] says, and raises what it says. *)
Theorem C53_kings : forall n h0 h x v, (1 <= n)%nat -> fresh_tree h0 h (DatFile_deep x) v ->
  match pop_tasks 434 x with
  | Ok y => exists h', user_run n h v (middle readme_2) = Ret (PNone, h') /\ fresh_tree h0 h' (DatFile_deep y) v /\
      (forall i, (i < List.length h0)%nat -> nth_error h' i = nth_error h i)
  | Err e => user_run n h v (middle readme_2) = Raise (Std e)
  end.
Proof.
  intros n h0 h x v N (fp & O & ND & R). destruct n as [|n]; [lia|]. unfold user_run. unfold DatFile_deep in O. apply own_obj in O as (q0 & vs & fps & -> & Q & -> & O).
  inversion ND as [|y z Q0 ND']; subst. match type of O with ownf _ ?fs _ _ => set (fields := fs) in * end.
  destruct (ownf_list h "civs" (map Civ_deep (DatFile_civs x)) fields vs fps O ND' eq_refl) as (q & ws & gs & E1 & E2 & E3 & E4 & E5 & E6 & E7 & E8).
  pose proof (loop_runs n 434 (DatFile_civs x) ws gs h [("data"%string, PRef q0)] E3 E4) as L.
  assert (RUN : forall r, civ_loop (S n) 434 ws [("data"%string, PRef q0)] h = r -> run (S n) "__main__" (middle readme_2) [("data"%string, PRef q0)] h =
    match r with Ret ((_, Some w), h') => Ret (w, h') | Ret ((_, None), h') => Ret (PNone, h') | Raise f => Raise f end).
  { intros r ER. change (middle readme_2) with [SFor "civ" (EAttr (EName "data") "civs") [pop_stmt 434]]. unfold run. rewrite block_cons.
    change (exec source (call source (S n)) "__main__" (SFor "civ" (EAttr (EName "data") "civs") [pop_stmt 434]) [("data"%string, PRef q0)])
      with (v <~ eval source (call source (S n)) "__main__" [("data"%string, PRef q0)] (EAttr (EName "data") "civs") ;; vs <~ items v ;; civ_loop (S n) 434 vs [("data"%string, PRef q0)]).
    rewrite !mbind_assoc. erewrite mbind_ret.
    2:{ cbn [eval]. rewrite (mbind_ret _ _ _ _ _ (p_name (S n) "__main__" [("data"%string, PRef q0)] "data" _ eq_refl h)). unfold attr, mbind, get_obj. rewrite Q. cbn [mopt]. unfold mret at 1. rewrite E1. reflexivity. }
    rewrite !mbind_assoc. erewrite (mbind_ret (items (PRef q))); [|unfold items, mbind, get_obj; rewrite E2; reflexivity].
    unfold mbind. rewrite ER. destruct r as [[[en' [w|]] h']|f]; reflexivity. }
  unfold pop_tasks. destruct (pop_tasks_of 434 (DatFile_civs x)) as [l'|e]; cbn [rbind].
  - destruct L as (en' & h' & gs' & L1 & L2 & L3 & L4 & L5 & L6). exists h'. split; [apply (RUN _ L1)|]. destruct (E8 h' _ gs' L2 L3 L4 L6) as (fs' & fps' & F1 & F2 & F3 & F4).
    assert (EF : DObj "DatFile" fs' = DatFile_deep (with_DatFile_civs l' x)).
    { unfold fields in F1. cbn [edit_field String.eqb Ascii.eqb Bool.eqb option_map] in F1. injection F1 as <-. clear. destruct x. reflexivity. }
    split.
    + rewrite <- EF. exists (q0 :: List.concat fps'). split; [|split].
      * apply own_obj. exists q0, vs, fps'. split; [reflexivity|]. split; [rewrite L6; [exact Q|]|split; [reflexivity|exact F2]]. intros J. apply Q0, E7, J.
      * constructor; [intros J; apply Q0, F4, J|exact F3].
      * intros i I. rewrite L5. apply R. destruct I as [<-|I]; [left; reflexivity|right; apply F4, I].
    + intros i LI. apply L6. intros J. specialize (R i (or_intror (E7 _ J))). lia.
  - apply (RUN _ L).
Qed.

(** ** The whole programs *)
(** Load, run the edit, save: the file that is written is the one of the model, and loads to the
    edited contents. *)
Definition program_does (n : nat) (h : heap) (program : list stmt) (data : bytes) (y : DatFile) : Prop :=
  exists v h1 h2 h3 b, user_load n h data PNone PNone = Ret (v, h1) /\ user_run n h1 v (middle program) = Ret (PNone, h2) /\
    user_save_file n h2 v = Ret (PBytes b, h3) /\ later h h3 /\ to_bytes y = Ok b /\ from_bytes b = Ok y.
Theorem C53_loom_file : forall n h data x y, (20 <= n)%nat -> from_bytes data = Ok x -> set_cost 22 0 69 x = Ok y -> program_does n h readme_1 data y.
Proof.
  intros n h data x y N FB E. pose proof (C49_DatFile n h data PNone PNone ltac:(lia)) as H. rewrite FB in H. destruct H as (v & h1 & E1 & L1 & FT).
  pose proof (C53_loom n h h1 x v FT) as C. rewrite E in C. destruct C as (q & h2 & E2 & FT2 & F & SAME).
  destruct (C32_cost x 22 0 69 y (from_bytes_wf _ _ FB) ltac:(lia) E) as (b & TB & FB2). destruct FT2 as (fp2 & O2 & _).
  destruct (C48_DatFile n h2 y v b N (own_stands _ _ _ _ _ O2) TB) as (h3 & E3 & L3). exists v, h1, h2, h3, b. split; [exact E1|]. split; [exact E2|]. split; [exact E3|]. split; [|split; [exact TB|exact FB2]].
  destruct FT as (fp & O & ND & R). intros l o I. apply L3. pose proof (R _ (follow_in _ _ _ _ _ _ O ND F)). pose proof (nth_lt _ _ _ I). rewrite SAME by lia. apply L1, I.
Qed.
Theorem C53_kings_file : forall n h data x y, (20 <= n)%nat -> from_bytes data = Ok x -> pop_tasks 434 x = Ok y -> program_does n h readme_2 data y.
Proof.
  intros n h data x y N FB E. pose proof (C49_DatFile n h data PNone PNone ltac:(lia)) as H. rewrite FB in H. destruct H as (v & h1 & E1 & L1 & FT).
  pose proof (C53_kings n h h1 x v ltac:(lia) FT) as C. rewrite E in C. destruct C as (h2 & E2 & FT2 & SAME).
  destruct (C32_tasks 434 x y (from_bytes_wf _ _ FB) E) as (b & TB & FB2). destruct FT2 as (fp2 & O2 & _).
  destruct (C48_DatFile n h2 y v b N (own_stands _ _ _ _ _ O2) TB) as (h3 & E3 & L3). exists v, h1, h2, h3, b. split; [exact E1|]. split; [exact E2|]. split; [exact E3|]. split; [|split; [exact TB|exact FB2]].
  intros l o I. apply L3. rewrite SAME by apply (nth_lt _ _ _ I). apply L1, I.
Qed.
(** What the programs raise: [IndexError] if there is no such tech or cost ... *)
Theorem C53_loom_raises : forall n h data x e, (20 <= n)%nat -> from_bytes data = Ok x -> set_cost 22 0 69 x = Err e ->
  exists v h1, user_load n h data PNone PNone = Ret (v, h1) /\ user_run n h1 v (middle readme_1) = Raise (Std e) /\ e = IndexError.
Proof.
  intros n h data x e N FB E. pose proof (C49_DatFile n h data PNone PNone ltac:(lia)) as H. rewrite FB in H. destruct H as (v & h1 & E1 & L1 & FT).
  pose proof (C53_loom n h h1 x v FT) as C. rewrite E in C. exists v, h1. split; [exact E1|]. split; [exact C|].
  unfold set_cost, get_nth in E. destruct (nth_error (DatFile_techs x) 22) as [t|]; cbn [rbind] in E; [|congruence]. destruct (nth_error (Tech_resource_costs t) 0); cbn [rbind] in E; congruence.
Qed.
(** ... and [IndexError] or [AttributeError] if a civilisation has no unit 434, or one without tasks. *)
Theorem C53_kings_raises : forall n h data x e, (20 <= n)%nat -> from_bytes data = Ok x -> pop_tasks 434 x = Err e ->
  exists v h1, user_load n h data PNone PNone = Ret (v, h1) /\ user_run n h1 v (middle readme_2) = Raise (Std e) /\ (e = IndexError \/ e = AttributeError).
Proof.
  intros n h data x e N FB E. pose proof (C49_DatFile n h data PNone PNone ltac:(lia)) as H. rewrite FB in H. destruct H as (v & h1 & E1 & L1 & FT).
  pose proof (C53_kings n h h1 x v ltac:(lia) FT) as C. rewrite E in C. exists v, h1. split; [exact E1|]. split; [exact C|].
  unfold pop_tasks in E. destruct (pop_tasks_of 434 (DatFile_civs x)) as [l|e0] eqn:P; cbn [rbind] in E; [discriminate E|]. injection E as <-. clear -P. revert P.
  generalize (DatFile_civs x). intros l. induction l as [|c l IH]; cbn [pop_tasks_of]; [discriminate|]. destruct (pop_task 434 c) as [c'|e1] eqn:E; cbn [rbind].
  - destruct (pop_tasks_of 434 l) as [l'|e1]; cbn [rbind]; [discriminate|]. intros X. injection X as ->. apply IH. reflexivity.
  - intros X. injection X as ->. unfold pop_task, get_nth in E. destruct (nth_error (Civ_units c) 434) as [[u|]|]; cbn [rbind the] in E; [|right; congruence|left; congruence].
    destruct (Unit_bird u) as [b|]; cbn [rbind the] in E; [|right; congruence]. destruct (Bird_tasks b); cbn [rbind pop] in E; [left; congruence|discriminate E].
Qed.

(** ** Concrete cases: files with 23 techs, and with 435 units *)
Definition loom_file : DatFile := with_DatFile_techs (repeat (sample_Tech VER_88) 23) (sample VER_88).
Definition kings_file : DatFile := with_DatFile_civs [with_Civ_units (repeat None 434 ++ [Some (sample_Unit VER_88 70)]) (sample_Civ VER_88)] (sample VER_88).
Lemma loom_wf : DatFile_wf loom_file.
Proof.
  apply (with_techs_wf VER_88); [apply sample_wf; discriminate|apply sample_version; discriminate| |reflexivity].
  apply Forall_forall. intros t I. apply repeat_spec in I as ->. split; [vm_compute; reflexivity|]. repeat split; discriminate.
Qed.
Lemma kings_wf : DatFile_wf kings_file.
Proof.
  apply (with_civs_wf VER_88); [apply sample_wf; discriminate|apply sample_version; discriminate| |reflexivity].
  constructor; [|constructor]. split; [vm_compute; reflexivity|]. unfold Civ_shape. apply Forall_app. split.
  - apply Forall_forall. intros u I. apply repeat_spec in I as ->. exact I.
  - constructor; [|constructor]. apply sample_Unit_shape.
Qed.
Example C53_case_loom : exists data y, to_bytes loom_file = Ok data /\ set_cost 22 0 69 loom_file = Ok y /\ y <> loom_file /\ program_does 20 [] readme_1 data y.
Proof.
  destruct (C01_round_trip _ loom_wf) as (data & TB & FB & _). assert (E : exists y, set_cost 22 0 69 loom_file = Ok y) by (eexists; reflexivity). destruct E as [y E].
  exists data, y. split; [exact TB|]. split; [exact E|]. split; [|apply (C53_loom_file 20 [] data loom_file y (le_n _) FB E)].
  intros ->. destruct (C32_cost_only _ _ _ _ _ E) as ((t & c & T & C & A) & _). injection T as <-. injection C as <-. discriminate A.
Qed.
Example C53_case_kings : exists data y, to_bytes kings_file = Ok data /\ pop_tasks 434 kings_file = Ok y /\ y <> kings_file /\ program_does 20 [] readme_2 data y.
Proof.
  destruct (C01_round_trip _ kings_wf) as (data & TB & FB & _).
  assert (E : exists y, pop_tasks 434 kings_file = Ok y).
  { assert (P : exists d, pop_task 434 (with_Civ_units (repeat None 434 ++ [Some (sample_Unit VER_88 70)]) (sample_Civ VER_88)) = Ok d).
    { unfold pop_task, get_nth. replace (nth_error _ 434) with (Some (Some (sample_Unit VER_88 70))) by reflexivity. cbn [rbind the].
      replace (Unit_bird (sample_Unit VER_88 70)) with (Some (sample_Bird VER_88)) by reflexivity. cbn [the rbind]. eexists. reflexivity. }
    destruct P as [d P]. unfold pop_tasks. replace (DatFile_civs kings_file) with [with_Civ_units (repeat None 434 ++ [Some (sample_Unit VER_88 70)]) (sample_Civ VER_88)] by reflexivity.
    cbn [pop_tasks_of]. rewrite P. eexists. reflexivity. }
  destruct E as [y E]. exists data, y. split; [exact TB|]. split; [exact E|]. split; [|apply (C53_kings_file 20 [] data kings_file y (le_n _) FB E)].
  intros ->. destruct (C32_tasks 434 _ _ kings_wf E) as (b & T & _). destruct (C32_tasks_size 434 _ _ _ _ kings_wf E T T) as (v & V & L).
  assert (K : List.length (DatFile_civs kings_file) = 1%nat) by reflexivity. rewrite K in L. destruct (Wire.since 88 v); lia.
Qed.
(** The file of the sample has no 23rd tech and no 435th unit. *)
Example C53_case_raises : exists data, to_bytes (sample VER_84) = Ok data /\ from_bytes data = Ok (sample VER_84) /\
  set_cost 22 0 69 (sample VER_84) = Err IndexError /\ pop_tasks 434 (sample VER_84) = Err IndexError.
Proof. destruct (C01_round_trip _ (sample_wf VER_84 ltac:(discriminate))) as (data & TB & FB & _). exists data. split; [exact TB|]. split; [exact FB|]. split; reflexivity. Qed.
(** Reading: an item that exists, one that does not, and an attribute of [None]. *)
Example C53_case_read : walk [Attr "civs"; Item 1; Attr "name"] (DatFile_deep (sample VER_88)) = Some (Ok (DStr (Civ_name (sample_Civ VER_88)))) /\
  walk [Attr "civs"; Item 2; Attr "name"] (DatFile_deep (sample VER_88)) = Some (Err IndexError) /\
  walk [Attr "civs"; Item 0; Attr "units"; Item 1; Attr "bird"] (DatFile_deep (sample VER_88)) = Some (Err AttributeError).
Proof. repeat split; reflexivity. Qed.

Definition all_of_this_file := (C53_read, C53_loom, C53_kings, C53_loom_file, C53_kings_file, C53_loom_raises, C53_kings_raises).
Print Assumptions all_of_this_file.
