(** * What Python's own [json.loads] makes of the text that [dat-to-json] prints.

    CPython's json/scanner.py (3.11-3.13) takes three words beyond RFC 8259, NaN, Infinity and
    -Infinity (json/decoder.py:14-30 parse_constant): with them every dump is read back.  The
    parser below is that of [Json.v] with the three words; the lemmas are those of [JsonP.v]
    again.  It is a specification: the readers of the dumps are programs of the users. *)
From Verif Require Import Base PyFloat PyStr FloatSpec FS Dump Json JsonP JsonT.
From Coq Require Import String Ascii ZifyBool.
Open Scope Z_scope.
Local Open Scope list_scope.
Local Notation length := List.length.

(** [float('nan')], [float('inf')], [float('-inf')] *)
Definition NAN : f64 := f64_of_bits (2047 * 2 ^ 52 + 2 ^ 51).
Definition INFINITY : f64 := f64_of_bits (2047 * 2 ^ 52).
Definition MINUS_INFINITY : f64 := f64_of_bits (2 ^ 63 + 2047 * 2 ^ 52).
(** Values, the elements of a list and the members of an object, behind the opening bracket. *)
Fixpoint pvalue (float_of : pystr -> option f64) (fuel : nat) (s : pystr) : option (json * pystr) :=
  match fuel with
  | O => None
  | S f =>
      match skip_ws s with
      | [] => None
      | c :: r =>
          if c =? QUOTE then match chars r with Some (t, r') => Some (JText t, r') | None => None end
          else if c =? LBRACKET then
            match skip_ws r with
            | e :: r' => if e =? RBRACKET then Some (JList [], r')
                         else match pelements float_of f r with Some (l, r') => Some (JList l, r') | None => None end
            | [] => None
            end
          else if c =? LBRACE then
            match skip_ws r with
            | e :: r' => if e =? RBRACE then Some (JDict [], r')
                         else match pmembers float_of f r with Some (l, r') => Some (JDict l, r') | None => None end
            | [] => None
            end
          else if (c =? MINUS) || is_digit c then
            match number float_of (c :: r) with Some x => Some x | None => word "-Infinity" (JFloat MINUS_INFINITY) (c :: r) end
          else if c =? 78 then word "NaN" (JFloat NAN) (c :: r)
          else if c =? 73 then word "Infinity" (JFloat INFINITY) (c :: r)
          else if c =? 110 then word "null" JNull (c :: r)
          else if c =? 116 then word "true" (JBool true) (c :: r)
          else if c =? 102 then word "false" (JBool false) (c :: r)
          else None
      end
  end
with pelements (float_of : pystr -> option f64) (fuel : nat) (s : pystr) : option (list json * pystr) :=
  match fuel with
  | O => None
  | S f =>
      match pvalue float_of f s with
      | None => None
      | Some (j, r) =>
          match skip_ws r with
          | c :: r' => if c =? RBRACKET then Some ([j], r')
                       else if c =? COMMA then match pelements float_of f r' with Some (l, r'') => Some (j :: l, r'') | None => None end
                       else None
          | [] => None
          end
      end
  end
with pmembers (float_of : pystr -> option f64) (fuel : nat) (s : pystr) : option (list (pystr * json) * pystr) :=
  match fuel with
  | O => None
  | S f =>
      match skip_ws s with
      | q :: r0 =>
          if q =? QUOTE then
            match chars r0 with
            | None => None
            | Some (k, r1) =>
                match skip_ws r1 with
                | c :: r2 =>
                    if c =? COLON then
                      match pvalue float_of f r2 with
                      | None => None
                      | Some (j, r) =>
                          match skip_ws r with
                          | c :: r' => if c =? RBRACE then Some ([(k, j)], r')
                                       else if c =? COMMA then match pmembers float_of f r' with Some (l, r'') => Some ((k, j) :: l, r'') | None => None end
                                       else None
                          | [] => None
                          end
                      end
                    else None
                | [] => None
                end
            end
          else None
      | [] => None
      end
  end.
(** A JSON text is a value with white space around it. *)
Definition ploads (float_of : pystr -> option f64) (s : pystr) : option json :=
  match pvalue float_of (2 * length s) s with
  | Some (j, r) => match skip_ws r with [] => Some j | _ => None end
  | None => None
  end.


(** ** What is to be read back: the tree, every NaN being the NaN of [float('nan')]. *)
Definition is_nan (x : f64) : bool := (d_exp x =? 2047) && negb (d_man x =? 0).
Definition one_nan (x : f64) : f64 := if is_nan x then NAN else x.
Fixpoint pjson_of (t : tree) : json :=
  match t with
  | TNull => JNull
  | TInt z => JInt z
  | TFloat x => JFloat (one_nan x)
  | TText s => JText s
  | TList l => JList (map pjson_of l)
  | TDict l => JDict (map (fun kt => (text (fst kt), pjson_of (snd kt))) l)
  end.
Lemma bits_fields x : f64_bits x = d_sign x * 2 ^ 63 + d_exp x * 2 ^ 52 + d_man x /\ 0 <= d_sign x < 2.
Proof.
  pose proof (f64_bits_range x) as R. unfold d_sign, d_exp, d_man. revert R. generalize (f64_bits x). intros b R.
  change (2 ^ 63) with (2 ^ 52 * 2 ^ 11). rewrite <- Z.div_div by lia.
  pose proof (Z.div_mod b (2 ^ 52) ltac:(lia)) as E. pose proof (Z.mod_pos_bound b (2 ^ 52) ltac:(lia)) as M.
  set (q := b / 2 ^ 52) in *. set (m := b mod 2 ^ 52) in *.
  pose proof (Z.div_mod q (2 ^ 11) ltac:(lia)) as E'. pose proof (Z.mod_pos_bound q (2 ^ 11) ltac:(lia)) as M'.
  set (s := q / 2 ^ 11) in *. set (e := q mod 2 ^ 11) in *.
  change (2 ^ 52) with 4503599627370496 in *. change (2 ^ 11) with 2048 in *. change (2 ^ 64) with 18446744073709551616 in R.
  split; [lia|]. split; lia.
Qed.
Lemma infinity_is x : d_exp x = 2047 -> d_man x = 0 -> x = if d_sign x =? 0 then INFINITY else MINUS_INFINITY.
Proof.
  intros E M. destruct (bits_fields x) as [B S]. rewrite E, M in B. rewrite <- (f64_of_bits_bits x) at 1. rewrite B. unfold INFINITY, MINUS_INFINITY.
  destruct (Z.eqb_spec (d_sign x) 0); f_equal; lia.
Qed.
Lemma pvalue_ws fo f s s' : skip_ws s = skip_ws s' -> pvalue fo f s = pvalue fo f s'.
Proof. intros E. destruct f as [|f]; [reflexivity|]. cbn [pvalue]. rewrite E. reflexivity. Qed.
Lemma pvalue_newline fo f k s : pvalue fo f (newline k ++ s) = pvalue fo f s.
Proof. apply pvalue_ws, skip_newline. Qed.
Lemma pelements_newline fo f k s : pelements fo f (newline k ++ s) = pelements fo f s.
Proof. destruct f as [|f]; [reflexivity|]. cbn [pelements]. rewrite pvalue_newline. reflexivity. Qed.
Lemma pmembers_newline fo f k s : pmembers fo f (newline k ++ s) = pmembers fo f s.
Proof. destruct f as [|f]; [reflexivity|]. cbn [pmembers]. rewrite skip_newline. reflexivity. Qed.
Section Dumped.
Context (repr : f64 -> pystr) (float_of : pystr -> option f64) (RB : reads_back repr float_of).
Lemma pvalue_text f s r : text_ok s -> pvalue float_of (S f) (quote s ++ r) = Some (JText s, r).
Proof.
  intros H. unfold quote. cbn [app pvalue]. rewrite <- app_assoc. rewrite skip_none by reflexivity. change (QUOTE =? QUOTE) with true. cbv iota.
  cbn [app]. rewrite chars_quoted by exact H. reflexivity.
Qed.
Lemma pvalue_number f s x : number float_of s = Some x -> (exists c r, s = c :: r /\ (c =? MINUS) || is_digit c = true) -> pvalue float_of (S f) s = Some x.
Proof.
  intros N (c & r & -> & H). assert (W : is_ws c = false) by (unfold is_ws, is_digit in *; lia). cbn [pvalue]. rewrite skip_none by exact W. unfold is_digit in *.
  replace (c =? QUOTE) with false by lia. replace (c =? LBRACKET) with false by lia. replace (c =? LBRACE) with false by lia. rewrite H, N. reflexivity.
Qed.
Lemma minus_first s : exists c r, MINUS :: s = c :: r /\ (c =? MINUS) || is_digit c = true.
Proof. exists MINUS, s. split; reflexivity. Qed.
Lemma digit_first ds s : forallb is_digit ds = true -> ds <> [] -> exists c r, ds ++ s = c :: r /\ (c =? MINUS) || is_digit c = true.
Proof. intros D N. destruct (first_digit ds s D N) as (c & t & -> & Hc). exists c, t. rewrite Hc, orb_true_r. split; reflexivity. Qed.
Lemma pvalue_int f z r : stop r -> pvalue float_of (S f) (int_repr z ++ r) = Some (JInt z, r).
Proof.
  intros S. apply pvalue_number; [apply number_int, S|]. unfold int_repr. destruct (Z.ltb_spec z 0); [apply minus_first|].
  destruct (digits_ok z) as (_ & D & _ & N); [lia|]. apply digit_first; assumption.
Qed.
Lemma pvalue_float f x r : stop r -> pvalue float_of (S f) (float_text repr x ++ r) = Some (JFloat (one_nan x), r).
Proof.
  intros S. unfold float_text, one_nan, is_nan. destruct (Z.eqb_spec (d_exp x) 2047) as [E|E]; cbn [andb].
  - destruct (Z.eqb_spec (d_man x) 0) as [M|M]; [|reflexivity]. cbn [negb]. pose proof (infinity_is x E M) as I.
    destruct (d_sign x =? 0); rewrite I; reflexivity.
  - destruct (RB x) as [L F]; [unfold finite; apply Z.eqb_neq in E; rewrite E; reflexivity|].
    apply pvalue_number; [apply number_float; assumption|]. destruct L as (sg & ip & fp & ep & -> & Hs & [Di Ii] & _). rewrite <- !app_assoc.
    destruct Hs as [->| ->]; [|apply minus_first]. cbn [app]. apply digit_first; [exact Di|apply int_part_not_nil, Ii].
Qed.
Definition preads_value (t : tree) : Prop := Forall text_ok (texts_in t) -> forall k f r, (size t <= f)%nat -> stop r ->
  pvalue float_of f (dumps repr k t ++ r) = Some (pjson_of t, r).
Lemma pelements_ok k rest : forall l, Forall preads_value l -> Forall text_ok (flat_map texts_in l) -> l <> [] -> forall f,
  (fold_right (fun t n => S (size t) + n) 0 l <= f)%nat ->
  pelements float_of f (join_with (COMMA :: newline (S k)) (map (dumps repr (S k)) l) ++ newline k ++ RBRACKET :: rest)
  = Some (map pjson_of l, rest).
Proof.
  induction l as [|x l IH]; intros Hl Ht N f Hf; [congruence|]. inversion Hl as [|? ? Hx Hl']; subst.
  cbn [flat_map] in Ht. apply Forall_app in Ht as [Tx Ht]. cbn [fold_right] in Hf. destruct f as [|f]; [lia|].
  destruct l as [|y l].
  - cbn [map join_with pelements forallb]. rewrite Hx; [|exact Tx|lia|apply stop_newline].
    rewrite skip_newline, skip_none by reflexivity. reflexivity.
  - cbn [map] in *. change (join_with ?s (?a :: ?b :: ?r)) with (a ++ s ++ join_with s (b :: r)). rewrite <- !app_assoc. cbn [pelements].
    cbn [app]. rewrite Hx; [|exact Tx|lia|apply stop_comma]. cbn [forallb].
    rewrite skip_none by reflexivity. change (COMMA =? RBRACKET) with false. change (COMMA =? COMMA) with true. cbv iota.
    rewrite pelements_newline. rewrite IH; [|exact Hl'|exact Ht|discriminate|lia]. cbn [forallb]. reflexivity.
Qed.
Lemma pmembers_ok k rest : forall l, Forall (fun kt => preads_value (snd kt)) l -> Forall text_ok (flat_map (fun kt => texts_in (snd kt)) l) -> l <> [] -> forall f,
  (fold_right (fun kt n => S (size (snd kt)) + n) 0 l <= f)%nat ->
  pmembers float_of f (join_with (COMMA :: newline (S k)) (map (member repr k) l) ++ newline k ++ RBRACE :: rest)
  = Some (map (fun kt => (text (fst kt), pjson_of (snd kt))) l, rest).
Proof.
  induction l as [|[n x] l IH]; intros Hl Ht N f Hf; [congruence|]. inversion Hl as [|? ? Hx Hl']; subst. cbn [snd] in Hx.
  cbn [flat_map snd] in Ht. apply Forall_app in Ht as [Tx Ht]. cbn [fold_right snd] in Hf. destruct f as [|f]; [lia|].
  assert (M : forall s, stop s -> pmembers float_of (S f) (member repr k (n, x) ++ s) =
    match skip_ws s with
      | c :: r' => if c =? RBRACE then Some ([(text n, pjson_of x)], r')
                   else if c =? COMMA then match pmembers float_of f r' with Some (l, r'') => Some ((text n, pjson_of x) :: l, r'') | None => None end
                   else None
      | [] => None end).
  { intros s Hs. unfold member, quote. cbn [fst snd app]. rewrite <- !app_assoc. cbn [pmembers]. rewrite skip_none by reflexivity.
    change (QUOTE =? QUOTE) with true. cbv iota. cbn [app]. rewrite chars_quoted by apply key_ok. rewrite skip_none by reflexivity.
    change (COLON =? COLON) with true. cbv iota. rewrite (pvalue_ws float_of f (32 :: dumps repr (S k) x ++ s) (dumps repr (S k) x ++ s)) by reflexivity.
    rewrite Hx; [|exact Tx|lia|exact Hs]. reflexivity. }
  destruct l as [|y l].
  - cbn [map join_with forallb]. rewrite M by apply stop_newline. cbn [snd].
    rewrite skip_newline, skip_none by reflexivity. reflexivity.
  - cbn [map] in *. change (join_with ?s (?a :: ?b :: ?r)) with (a ++ s ++ join_with s (b :: r)). rewrite <- !app_assoc.
    cbn [app]. rewrite M by apply stop_comma. cbn [forallb snd].
    rewrite skip_none by reflexivity. change (COMMA =? RBRACE) with false. change (COMMA =? COMMA) with true. cbv iota.
    rewrite pmembers_newline. rewrite IH; [|exact Hl'|exact Ht|discriminate|lia]. cbn [forallb fst]. reflexivity.
Qed.
Lemma pvalue_ok t : preads_value t.
Proof.
  induction t as [|z|x|s|l IH|l IH] using tree_rec'; intros Ht k f r Hf Hs; (destruct f as [|f]; [cbn [size] in Hf; lia|]).
  - reflexivity.
  - apply pvalue_int, Hs.
  - apply pvalue_float, Hs.
  - cbn [texts_in] in Ht. inversion Ht as [|? ? T _]; subst. apply pvalue_text, T.
  - cbn [size] in Hf. cbn [pjson_of dumps].
    destruct l as [|x l]; [reflexivity|]. unfold enclose. cbn [map]. cbn [app pvalue]. rewrite skip_none by reflexivity.
    change (LBRACKET =? QUOTE) with false. change (LBRACKET =? LBRACKET) with true. cbv iota.
    rewrite <- !app_assoc, skip_newline.
    pose proof (join_begins (COMMA :: newline (S k)) (dumps repr (S k) x) (map (dumps repr (S k)) l) (begins_dumps repr float_of RB x (S k))) as (c & q & Ec & Wc & Nc & _).
    rewrite Ec at 1. cbn [app]. rewrite skip_none by exact Wc. apply Z.eqb_neq in Nc. rewrite Nc. rewrite pelements_newline.
    pose proof (pelements_ok k r (x :: l) IH Ht ltac:(discriminate) f ltac:(cbn [fold_right] in *; lia)) as E. cbn [map] in E. cbn [app]. rewrite E.
    reflexivity.
  - cbn [size] in Hf. cbn [pjson_of dumps].
    change (fun kt : string * tree => quote (text (fst kt)) ++ [COLON; 32] ++ dumps repr (S k) (snd kt)) with (member repr k).
    destruct l as [|x l]; [reflexivity|]. unfold enclose. cbn [map]. cbn [app pvalue]. rewrite skip_none by reflexivity.
    change (LBRACE =? QUOTE) with false. change (LBRACE =? LBRACKET) with false. change (LBRACE =? LBRACE) with true. cbv iota.
    rewrite <- !app_assoc, skip_newline.
    assert (B : begins (member repr k x)) by (unfold member; begin_with).
    pose proof (join_begins (COMMA :: newline (S k)) _ (map (member repr k) l) B) as (c & q & Ec & Wc & _ & Nc).
    rewrite Ec at 1. cbn [app]. rewrite skip_none by exact Wc. apply Z.eqb_neq in Nc. rewrite Nc. rewrite pmembers_newline.
    pose proof (pmembers_ok k r (x :: l) IH Ht ltac:(discriminate) f ltac:(cbn [fold_right] in *; lia)) as E. cbn [map] in E. cbn [app]. match type of E with ?L = _ => match goal with |- context [pmembers float_of f ?s] => change (pmembers float_of f s) with L end end.
    rewrite E.
    reflexivity.
Qed.
Lemma ploads_dumps t : Forall text_ok (texts_in t) -> ploads float_of (dumps repr 0%nat t ++ [10]) = Some (pjson_of t).
Proof.
  intros H. unfold ploads. rewrite (pvalue_ok t H 0%nat); [|rewrite app_length; pose proof (size_length repr float_of RB t 0%nat); lia|cbn; unfold is_digit; lia].
  reflexivity.
Qed.
End Dumped.
(** Python's reader reads what the strict reader reads. *)
Lemma strict_python fo f :
  (forall s x, value fo f s = Some x -> pvalue fo f s = Some x) /\
  (forall s x, elements fo f s = Some x -> pelements fo f s = Some x) /\
  (forall s x, members fo f s = Some x -> pmembers fo f s = Some x).
Proof.
  induction f as [|f (IV & IE & IM)]; [repeat split; discriminate|]. repeat split; intros s x; cbn [value elements members pvalue pelements pmembers].
  - destruct (skip_ws s) as [|c r]; [discriminate|]. destruct (c =? QUOTE); [exact (fun H => H)|].
    destruct (c =? LBRACKET).
    { destruct (skip_ws r) as [|e r']; [discriminate|]. destruct (e =? RBRACKET); [exact (fun H => H)|].
      destruct (elements fo f r) as [q|] eqn:E; [|discriminate]. rewrite (IE _ _ E). exact (fun H => H). }
    destruct (c =? LBRACE).
    { destruct (skip_ws r) as [|e r']; [discriminate|]. destruct (e =? RBRACE); [exact (fun H => H)|].
      destruct (members fo f r) as [q|] eqn:E; [|discriminate]. rewrite (IM _ _ E). exact (fun H => H). }
    destruct (_ || _); [intros ->; reflexivity|].
    destruct (Z.eqb_spec c 110) as [->|]; [exact (fun H => H)|]. destruct (Z.eqb_spec c 116) as [->|]; [exact (fun H => H)|].
    destruct (Z.eqb_spec c 102) as [->|]; [exact (fun H => H)|discriminate].
  - destruct (value fo f s) as [[j r]|] eqn:V; [|discriminate]. rewrite (IV _ _ V). destruct (skip_ws r) as [|c r']; [discriminate|].
    destruct (c =? RBRACKET); [exact (fun H => H)|]. destruct (c =? COMMA); [|discriminate].
    destruct (elements fo f r') as [q|] eqn:E; [|discriminate]. rewrite (IE _ _ E). exact (fun H => H).
  - destruct (skip_ws s) as [|q r0]; [discriminate|]. destruct (q =? QUOTE); [|discriminate]. destruct (chars r0) as [[k r1]|]; [|discriminate].
    destruct (skip_ws r1) as [|c r2]; [discriminate|]. destruct (c =? COLON); [|discriminate].
    destruct (value fo f r2) as [[j r]|] eqn:V; [|discriminate]. rewrite (IV _ _ V). destruct (skip_ws r) as [|d r']; [discriminate|].
    destruct (d =? RBRACE); [exact (fun H => H)|]. destruct (d =? COMMA); [|discriminate].
    destruct (members fo f r') as [l|] eqn:E; [|discriminate]. rewrite (IM _ _ E). exact (fun H => H).
Qed.
Lemma loads_ploads fo s j : loads fo s = Some j -> ploads fo s = Some j.
Proof.
  unfold loads, ploads. destruct (value fo _ s) as [x|] eqn:V; [|discriminate]. rewrite (proj1 (strict_python fo _) _ _ V). exact (fun H => H).
Qed.
(** The names of the members do not depend on the floats. *)
Lemma pjson_distinct t : distinct (pjson_of t) = distinct (json_of t).
Proof.
  induction t as [|z|x|s|l IH|l IH] using tree_rec'; try reflexivity; cbn [pjson_of json_of distinct].
  - induction IH as [|a l Ha _ IHl]; [reflexivity|]. cbn [map forallb]. rewrite Ha, IHl. reflexivity.
  - f_equal; [rewrite !map_map; reflexivity|].
    induction IH as [|a l Ha _ IHl]; [reflexivity|]. cbn [map forallb fst snd]. rewrite Ha, IHl. reflexivity.
Qed.
Definition has_nan (t : tree) : bool := existsb is_nan (floats_in t).
Lemma existsb_flat_map {A B} (p : B -> bool) (g : A -> list B) l : existsb p (flat_map g l) = existsb (fun a => existsb p (g a)) l.
Proof. induction l as [|a l IH]; [reflexivity|]. cbn [flat_map existsb]. rewrite existsb_app, IH. reflexivity. Qed.
Lemma pjson_json t : has_nan t = false -> pjson_of t = json_of t.
Proof.
  unfold has_nan. induction t as [|z|x|s|l IH|l IH] using tree_rec'; intros H; try reflexivity; cbn [pjson_of json_of floats_in] in *.
  - cbn [existsb] in H. rewrite orb_false_r in H. unfold one_nan. rewrite H. reflexivity.
  - f_equal. rewrite existsb_flat_map in H. induction IH as [|a l Ha _ IHl]; [reflexivity|]. cbn [map existsb] in *. apply orb_false_iff in H as [H1 H2].
    rewrite (Ha H1), (IHl H2). reflexivity.
  - f_equal. rewrite existsb_flat_map in H. induction IH as [|a l Ha _ IHl]; [reflexivity|]. cbn [map existsb] in *. apply orb_false_iff in H as [H1 H2].
    rewrite (Ha H1), (IHl H2). reflexivity.
Qed.
Lemma nan_is_nan : is_nan NAN = true. Proof. vm_compute; reflexivity. Qed.
(** The JSON value says which NaN-free object it is. *)
Lemma pjson_of_inj t : forall u, pjson_of t = pjson_of u -> has_nan t = false -> t = u.
Proof.
  unfold has_nan. induction t as [|z|x|s|l IH|l IH] using tree_rec'; intros [] E H; try discriminate; try (injection E as ->; reflexivity); try reflexivity; cbn [floats_in] in H.
  - cbn [existsb] in H. rewrite orb_false_r in H. injection E as E. unfold one_nan in E. rewrite H in E. destruct (is_nan x0) eqn:N; [|congruence].
    rewrite E, nan_is_nan in H. discriminate.
  - rewrite existsb_flat_map in H. injection E as E. f_equal. revert l0 E. induction IH as [|a l Ha _ IHl]; intros [|b m] E; try discriminate; [reflexivity|].
    cbn [existsb] in H. apply orb_false_iff in H as [H1 H2]. injection E as E1 E2. f_equal; [apply Ha; assumption|apply IHl; assumption].
  - rewrite existsb_flat_map in H. injection E as E. f_equal. revert l0 E. induction IH as [|[k a] l Ha _ IHl]; intros [|[k' b] m] E; try discriminate; [reflexivity|].
    cbn [existsb snd] in *. apply orb_false_iff in H as [H1 H2]. cbn [map fst snd] in *. injection E as E0 E1 E2. apply text_inj in E0.
    apply Ha in E1; [|exact H1]. apply IHl in E2; [|exact H2]. congruence.
Qed.
