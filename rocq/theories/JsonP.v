(** * The text printed by [dat-to-json] is read back by a JSON parser: lemmas. *)
From Verif Require Import Base PyFloat PyStr FloatSpec FS Dump Json.
From Coq Require Import String Ascii ZifyBool.
Open Scope Z_scope.
Local Open Scope list_scope.
Local Notation length := List.length.

(** ** Integers *)
Lemma decimal_value_snoc a d : decimal_value (a ++ [d]) = 10 * decimal_value a + (d - 48).
Proof. unfold decimal_value. rewrite fold_left_app. reflexivity. Qed.
Lemma decimal_digits f : forall z, 0 <= z -> forallb is_digit (decimal f z) = true.
Proof.
  induction f as [|f IH]; intros z Hz; [reflexivity|]. cbn [decimal]. destruct (Z.ltb_spec z 10).
  - cbn [forallb]. unfold is_digit. lia.
  - rewrite forallb_app, IH by (apply Z.div_pos; lia). cbn [forallb andb]. unfold is_digit. pose proof (Z.mod_pos_bound z 10). lia.
Qed.
Lemma decimal_ok f : forall z, 0 <= z < 10 ^ Z.of_nat f -> decimal_value (decimal f z) = z /\ (0 < z -> exists c r, decimal f z = c :: r /\ c <> 48).
Proof.
  induction f as [|f IH]; intros z Hz; [cbn in Hz; assert (z = 0) by lia; subst; split; [reflexivity|lia]|]. cbn [decimal]. destruct (Z.ltb_spec z 10).
  - split; [unfold decimal_value; cbn [fold_left]; lia|]. intros P. exists (48 + z), []. split; [reflexivity|lia].
  - assert (Q : 0 <= z / 10 < 10 ^ Z.of_nat f).
    { split; [apply Z.div_pos; lia|]. apply Z.div_lt_upper_bound; [lia|]. rewrite Nat2Z.inj_succ, Z.pow_succ_r in Hz by lia. lia. }
    destruct (IH _ Q) as [V N]. split.
    + rewrite decimal_value_snoc, V. pose proof (Z.div_mod z 10). lia.
    + intros P. destruct N as (c & r & E & Nc); [apply Z.div_str_pos; lia|]. exists c, (r ++ [48 + z mod 10]). rewrite E. split; [reflexivity|exact Nc].
Qed.
Lemma digits_ok z : 0 <= z -> decimal_value (digits z) = z /\ forallb is_digit (digits z) = true /\ int_part (digits z) = true /\ digits z <> [].
Proof.
  intros Hz. unfold digits. assert (B : 0 <= z < 10 ^ Z.of_nat (S (Z.to_nat (Z.log2 z)))).
  { split; [exact Hz|]. rewrite Nat2Z.inj_succ, Z2Nat.id by apply Z.log2_nonneg. destruct (Z.eq_dec z 0) as [->|]; [reflexivity|].
    apply Z.lt_le_trans with (2 ^ Z.succ (Z.log2 z)); [apply Z.log2_spec; lia|]. apply Z.pow_le_mono_l. pose proof (Z.log2_nonneg z). lia. }
  destruct (decimal_ok _ _ B) as [V N]. split; [exact V|]. split; [apply decimal_digits, Hz|].
  destruct (Z.eq_dec z 0) as [->|]; [split; [reflexivity|discriminate]|]. destruct N as (c & r & E & Nc); [lia|]. rewrite E.
  split; [destruct r; [reflexivity|]; cbn [int_part]; apply Z.eqb_neq in Nc; rewrite Nc; reflexivity|discriminate].
Qed.
(** What may follow a number. *)
Definition stop (r : pystr) : Prop := match r with [] => True | c :: _ => is_digit c = false /\ c <> DOT /\ c <> 101 /\ c <> 69 end.
Definition no_digit (r : pystr) : Prop := match r with [] => True | c :: _ => is_digit c = false end.
Lemma stop_no_digit r : stop r -> no_digit r. Proof. destruct r; cbn; tauto. Qed.
Lemma take_digits_app ds r : forallb is_digit ds = true -> no_digit r -> take_digits (ds ++ r) = (ds, r).
Proof.
  induction ds as [|c ds IH]; cbn [app forallb]; intros H N.
  - destruct r as [|c r]; [reflexivity|]. cbn [take_digits]. cbn in N. rewrite N. reflexivity.
  - apply andb_true_iff in H as [Hc H]. cbn [take_digits]. rewrite Hc, IH by assumption. reflexivity.
Qed.
Lemma take_frac_stop r : stop r -> take_frac r = Some ([], r).
Proof. destruct r as [|c r]; [reflexivity|]. cbn. intros (_ & H & _). apply Z.eqb_neq in H. rewrite H. reflexivity. Qed.
Lemma take_exp_stop r : stop r -> take_exp r = Some ([], r).
Proof. destruct r as [|c r]; [reflexivity|]. cbn [stop take_exp]. intros (_ & _ & H1 & H2). apply Z.eqb_neq in H1, H2. rewrite H1, H2. reflexivity. Qed.
Lemma take_sign_digits ds r : forallb is_digit ds = true -> ds <> [] -> take_sign (ds ++ r) = ([], ds ++ r).
Proof.
  destruct ds as [|c ds]; [congruence|]. cbn [forallb app take_sign]. intros H _. apply andb_true_iff in H as [H _].
  unfold is_digit in H. replace (c =? MINUS) with false by lia. reflexivity.
Qed.
Lemma int_part_not_nil ds : int_part ds = true -> ds <> []. Proof. destruct ds; [discriminate|discriminate]. Qed.
Lemma number_int float_of z r : stop r -> number float_of (int_repr z ++ r) = Some (JInt z, r).
Proof.
  intros S. unfold number, int_repr. destruct (Z.ltb_spec z 0).
  - cbn [app take_sign]. change (MINUS =? MINUS) with true. cbv iota.
    destruct (digits_ok (- z)) as (V & D & I & _); [lia|]. rewrite take_digits_app, I, take_frac_stop, take_exp_stop by (assumption || apply stop_no_digit, S).
    cbn [is_nil andb]. rewrite V. do 3 f_equal. lia.
  - destruct (digits_ok z) as (V & D & I & N); [lia|]. rewrite take_sign_digits, take_digits_app, I, take_frac_stop, take_exp_stop by (assumption || apply stop_no_digit, S).
    cbn [is_nil andb]. rewrite V. reflexivity.
Qed.
(** ** Floats *)
Lemma take_frac_lit fp r : fp = [] \/ (exists d, fp = DOT :: d /\ d <> [] /\ forallb is_digit d = true) ->
  match r with c :: _ => is_digit c = false /\ c <> DOT | [] => True end -> take_frac (fp ++ r) = Some (fp, r).
Proof.
  intros [->|(d & -> & N & D)] R.
  - destruct r as [|c r]; [reflexivity|]. cbn. destruct R as [_ R]. apply Z.eqb_neq in R. rewrite R. reflexivity.
  - cbn [app take_frac]. change (DOT =? DOT) with true. cbv iota. rewrite take_digits_app; [|exact D|destruct r; [exact I|apply R]]. destruct d; [congruence|reflexivity].
Qed.
Lemma take_exp_lit ep r : ep = [] \/ (exists e g d, ep = e :: g ++ d /\ (e = 101 \/ e = 69) /\ (g = [] \/ g = [43] \/ g = [MINUS]) /\ d <> [] /\ forallb is_digit d = true) ->
  stop r -> take_exp (ep ++ r) = Some (ep, r).
Proof.
  intros [->|(e & g & d & -> & E & G & N & D)] S; [apply take_exp_stop, S|].
  cbn [app take_exp]. replace ((e =? 101) || (e =? 69)) with true by lia. rewrite <- app_assoc.
  assert (T : take_digits (d ++ r) = (d, r)) by (apply take_digits_app; [exact D|apply stop_no_digit, S]).
  assert (Nn : is_nil d = false) by (destruct d; [congruence|reflexivity]).
  destruct G as [->|[->| ->]].
  - destruct d as [|c d]; [congruence|]. cbn [app]. cbn [forallb] in D. apply andb_true_iff in D as [Dc _]. unfold is_digit in Dc.
    replace ((c =? 43) || (c =? MINUS)) with false by lia. cbn [app] in T. rewrite T. reflexivity.
  - cbn [app]. change ((43 =? 43) || (43 =? MINUS)) with true. cbv iota. rewrite T, Nn. reflexivity.
  - cbn [app]. change ((MINUS =? 43) || (MINUS =? MINUS)) with true. cbv iota. rewrite T, Nn. reflexivity.
Qed.
Lemma number_float float_of t x r : float_literal t -> float_of t = Some x -> stop r -> number float_of (t ++ r) = Some (JFloat x, r).
Proof.
  intros (sg & ip & fp & ep & -> & Hs & [Di Ii] & Hf & He & Hn) F S. unfold number. rewrite <- !app_assoc.
  assert (Ne : no_digit (fp ++ ep ++ r)).
  { destruct Hf as [->|(d & -> & _)]; [|reflexivity]. destruct He as [->|(e & g & d & -> & E & _)]; [apply stop_no_digit, S|]. cbn. unfold is_digit. lia. }
  assert (Nr : match ep ++ r with c :: _ => is_digit c = false /\ c <> DOT | [] => True end).
  { destruct He as [->|(e & g & d & -> & E & _)]; [destruct r as [|c r]; [exact I|]; cbn in *; tauto|]. cbn. unfold is_digit. lia. }
  assert (T : take_sign (sg ++ ip ++ fp ++ ep ++ r) = (sg, ip ++ fp ++ ep ++ r)).
  { destruct Hs as [->| ->]; [|reflexivity]. cbn [app]. apply take_sign_digits; [exact Di|apply int_part_not_nil, Ii]. }
  rewrite T, take_digits_app, Ii, take_frac_lit, take_exp_lit by assumption. rewrite F.
  destruct fp; [|reflexivity]. destruct ep; [|reflexivity]. destruct Hn; congruence.
Qed.
(** ** Strings *)
Lemma unhex_hex d : 0 <= d < 16 -> unhex (hex d) = Some d.
Proof.
  intros H. unfold unhex, hex, is_digit. destruct (Z.ltb_spec d 10).
  - replace ((48 <=? 48 + d) && (48 + d <=? 57)) with true by lia. f_equal. lia.
  - replace ((48 <=? 87 + d) && (87 + d <=? 57)) with false by lia. replace ((97 <=? 87 + d) && (87 + d <=? 102)) with true by lia. f_equal. lia.
Qed.
Lemma hex4_ok c : 0 <= c < 65536 -> hex4 (hex (c / 4096 mod 16)) (hex (c / 256 mod 16)) (hex (c / 16 mod 16)) (hex (c mod 16)) = Some c.
Proof.
  intros H. unfold hex4. rewrite !unhex_hex by (apply Z.mod_pos_bound; lia). f_equal.
  rewrite (Z.mod_small (c / 4096)) by (split; [apply Z.div_pos; lia|apply Z.div_lt_upper_bound; lia]).
  change 4096 with (16 * (16 * 16)) at 2. change 256 with (16 * 16) at 2. rewrite <- !Z.div_div by lia.
  pose proof (Z.div_mod c 16). pose proof (Z.div_mod (c / 16) 16). pose proof (Z.div_mod (c / 16 / 16) 16). lia.
Qed.
Lemma chars_plain c r : c <> QUOTE -> c <> BACKSLASH -> 32 <= c -> chars (c :: r) = add_char c (chars r).
Proof. intros A B C. cbn [chars]. apply Z.eqb_neq in A, B. rewrite A, B. replace (c <? 32) with false by lia. reflexivity. Qed.
Lemma chars_escape e u r : e <> 117 -> unescape e = Some u -> chars (BACKSLASH :: e :: r) = add_char u (chars r).
Proof. intros A B. cbn [chars]. change (BACKSLASH =? QUOTE) with false. change (BACKSLASH =? BACKSLASH) with true. cbv iota. apply Z.eqb_neq in A. rewrite A, B. reflexivity. Qed.
Lemma chars_u c r : 0 <= c < 65536 -> high c = false -> chars (u_escape c ++ r) = add_char c (chars r).
Proof.
  intros A B. unfold u_escape. cbn [app chars]. change (BACKSLASH =? QUOTE) with false. change (BACKSLASH =? BACKSLASH) with true.
  change (117 =? 117) with true. cbv iota. rewrite hex4_ok by exact A. rewrite B. reflexivity.
Qed.
Lemma chars_pair c d r : high c = true -> low d = true -> chars (u_escape c ++ u_escape d ++ r) = add_char (65536 + 1024 * (c - 55296) + (d - 56320)) (chars r).
Proof.
  intros A B. unfold high in A. unfold low in B. unfold u_escape. cbn [app chars]. change (BACKSLASH =? QUOTE) with false. change (BACKSLASH =? BACKSLASH) with true.
  change (117 =? 117) with true. cbv iota. rewrite hex4_ok by lia. unfold high. rewrite A. cbn [andb]. rewrite hex4_ok by lia. unfold low. rewrite B. reflexivity.
Qed.
Lemma chars_escaped c r : scalar c = true -> chars (escape c ++ r) = add_char c (chars r).
Proof.
  unfold scalar, surrogate. intros H. unfold escape.
  destruct (Z.eqb_spec c QUOTE) as [->|N1]; [apply chars_escape; [discriminate|reflexivity]|].
  destruct (Z.eqb_spec c BACKSLASH) as [->|N2]; [apply chars_escape; [discriminate|reflexivity]|].
  destruct (Z.eqb_spec c 10) as [->|N3]; [apply chars_escape; [discriminate|reflexivity]|].
  destruct (Z.eqb_spec c 13) as [->|N4]; [apply chars_escape; [discriminate|reflexivity]|].
  destruct (Z.eqb_spec c 9) as [->|N5]; [apply chars_escape; [discriminate|reflexivity]|].
  destruct (Z.eqb_spec c 12) as [->|N6]; [apply chars_escape; [discriminate|reflexivity]|].
  destruct (Z.eqb_spec c 8) as [->|N7]; [apply chars_escape; [discriminate|reflexivity]|].
  destruct ((32 <=? c) && (c <=? 126)) eqn:P; [apply chars_plain; lia|].
  destruct (Z.ltb_spec c 65536); [apply chars_u; [lia|unfold high; lia]|]. cbv zeta.
  assert (D : 0 <= (c - 65536) / 1024 < 1024) by (split; [apply Z.div_pos; lia|apply Z.div_lt_upper_bound; lia]).
  rewrite (Z.mod_small ((c - 65536) / 1024)) by exact D. pose proof (Z.mod_pos_bound (c - 65536) 1024).
  rewrite <- app_assoc, chars_pair by (unfold high, low; lia). f_equal. pose proof (Z.div_mod (c - 65536) 1024). lia.
Qed.
Lemma chars_quoted s r : forallb scalar s = true -> chars (flat_map escape s ++ QUOTE :: r) = Some (s, r).
Proof.
  induction s as [|c s IH]; cbn [forallb flat_map app]; intros H; [reflexivity|].
  apply andb_true_iff in H as [Hc H]. rewrite <- app_assoc, chars_escaped, IH by assumption. reflexivity.
Qed.
(** ** Trees *)
Section tree_induction.
  Context (P : tree -> Prop) (Hn : P TNull) (Hi : forall z, P (TInt z)) (Hf : forall x, P (TFloat x)) (Ht : forall s, P (TText s))
    (Hl : forall l, Forall P l -> P (TList l)) (Hd : forall l, Forall (fun kt => P (snd kt)) l -> P (TDict l)).
  Fixpoint tree_rec' (t : tree) : P t :=
    match t with
    | TNull => Hn
    | TInt z => Hi z
    | TFloat x => Hf x
    | TText s => Ht s
    | TList l => Hl l ((fix go l := match l return Forall P l with [] => Forall_nil _ | a :: r => Forall_cons a (tree_rec' a) (go r) end) l)
    | TDict l => Hd l ((fix go l := match l return Forall (fun kt => P (snd kt)) l with [] => Forall_nil _ | a :: r => Forall_cons a (tree_rec' (snd a)) (go r) end) l)
    end.
End tree_induction.
(** White space. *)
Lemma skip_spaces n r : skip_ws (repeat 32 n ++ r) = skip_ws r.
Proof. induction n as [|n IH]; [reflexivity|]. cbn [repeat app skip_ws]. exact IH. Qed.
Lemma skip_newline k r : skip_ws (newline k ++ r) = skip_ws r.
Proof. unfold newline. cbn [app skip_ws]. apply skip_spaces. Qed.
Lemma skip_none c r : is_ws c = false -> skip_ws (c :: r) = c :: r.
Proof. intros H. cbn [skip_ws]. rewrite H. reflexivity. Qed.
Lemma value_ws fo f s s' : skip_ws s = skip_ws s' -> value fo f s = value fo f s'.
Proof. intros E. destruct f as [|f]; [reflexivity|]. cbn [value]. rewrite E. reflexivity. Qed.
Lemma value_newline fo f k s : value fo f (newline k ++ s) = value fo f s.
Proof. apply value_ws, skip_newline. Qed.
Lemma elements_newline fo f k s : elements fo f (newline k ++ s) = elements fo f s.
Proof. destruct f as [|f]; [reflexivity|]. cbn [elements]. rewrite value_newline. reflexivity. Qed.
Lemma members_newline fo f k s : members fo f (newline k ++ s) = members fo f s.
Proof. destruct f as [|f]; [reflexivity|]. cbn [members]. rewrite skip_newline. reflexivity. Qed.
(** How a printed value begins. *)
Definition begins (s : pystr) : Prop := exists c r, s = c :: r /\ is_ws c = false /\ c <> RBRACKET /\ c <> RBRACE.
Lemma begins_digits ds : forallb is_digit ds = true -> ds <> [] -> begins ds.
Proof.
  destruct ds as [|c r]; [congruence|]. cbn [forallb]. intros H _. apply andb_true_iff in H as [H _]. exists c, r. split; [reflexivity|].
  unfold is_digit in H. unfold is_ws. lia.
Qed.
Lemma begins_app s r : begins s -> begins (s ++ r).
Proof. intros (c & r' & -> & H). exists c, (r' ++ r). split; [reflexivity|exact H]. Qed.
Ltac begin_with := eexists; eexists; split; [reflexivity|]; vm_compute; repeat split; intros; discriminate.
Lemma begins_literal t : float_literal t -> begins t.
Proof.
  intros (sg & ip & fp & ep & -> & Hs & [Di Ii] & _). destruct Hs as [->| ->]; [cbn [app]; apply begins_app, begins_digits; [exact Di|apply int_part_not_nil, Ii]|begin_with].
Qed.
Lemma begins_int z : begins (int_repr z).
Proof.
  unfold int_repr. destruct (Z.ltb_spec z 0); [begin_with|]. destruct (digits_ok z) as (_ & D & _ & N); [lia|]. apply begins_digits; assumption.
Qed.
Lemma begins_enclose o c k l : is_ws o = false -> o <> RBRACKET -> o <> RBRACE -> begins (enclose o c k l).
Proof. intros A B C. destruct l; (eexists; eexists; split; [reflexivity|]; repeat split; assumption). Qed.
Section Dumped.
Context (repr : f64 -> pystr) (float_of : pystr -> option f64) (RB : reads_back repr float_of).
Lemma begins_dumps t k : begins (dumps repr k t).
Proof.
  destruct t; cbn [dumps].
  - begin_with.
  - apply begins_int.
  - unfold float_text. destruct (Z.eqb_spec (d_exp x) 2047) as [E|E].
    + destruct (_ =? _); [destruct (_ =? _)|]; begin_with.
    + apply begins_literal. apply RB. unfold finite. apply Z.eqb_neq in E. rewrite E. reflexivity.
  - begin_with.
  - apply begins_enclose; discriminate || reflexivity.
  - apply begins_enclose; discriminate || reflexivity.
Qed.
(** Fuel. *)
Fixpoint size (t : tree) : nat :=
  match t with
  | TList l => S (fold_right (fun t n => S (size t) + n)%nat 0%nat l)
  | TDict l => S (fold_right (fun kt n => S (size (snd kt)) + n)%nat 0%nat l)
  | _ => 1%nat
  end.
Lemma begins_length s : begins s -> (1 <= length s)%nat.
Proof. intros (c & r & -> & _). cbn [length]. lia. Qed.
Lemma join_length sep l : (length (join_with sep l) >= fold_right (fun s n => length s + n)%nat 0%nat l)%nat.
Proof. induction l as [|x [|y r] IH]; [cbn; lia|cbn; lia|]. cbn [join_with fold_right] in *. rewrite !app_length. lia. Qed.
Lemma enclose_length o c k l : (length (enclose o c k l) >= 2 + fold_right (fun s n => length s + n)%nat 0%nat l)%nat.
Proof.
  unfold enclose. destruct l as [|x r]; [cbn; lia|]. cbn [length]. rewrite !app_length. cbn [length].
  pose proof (join_length (COMMA :: newline (S k)) (x :: r)). lia.
Qed.
Lemma size_length t : forall k, (S (size t) <= 2 * length (dumps repr k t))%nat.
Proof.
  induction t as [| | | |l IH|l IH] using tree_rec'; intros k;
    try (match goal with |- (_ <= 2 * length (dumps repr k ?t))%nat => pose proof (begins_length _ (begins_dumps t k)) end; cbn [size]; lia).
  - cbn [dumps size]. match goal with |- (_ <= 2 * length (enclose ?o ?c ?k ?l))%nat => pose proof (enclose_length o c k l) as E end.
    assert (S : (fold_right (fun t n => S (size t) + n) 0 l <= 2 * fold_right (fun s n => length s + n) 0 (map (dumps repr (S k)) l))%nat).
    { clear E. induction IH as [|x r Hx _ IHr]; [reflexivity|]. cbn [map fold_right]. specialize (Hx (S k)). lia. }
    lia.
  - cbn [dumps size]. match goal with |- (_ <= 2 * length (enclose ?o ?c ?k ?l))%nat => pose proof (enclose_length o c k l) as E end.
    match type of E with (_ >= _ + ?f)%nat => assert (S : (fold_right (fun kt n => S (size (snd kt)) + n) 0 l <= 2 * f)%nat) end.
    { clear E. induction IH as [|x r Hx _ IHr]; [reflexivity|]. cbn [map fold_right]. specialize (Hx (S k)). rewrite !app_length. lia. }
    lia.
Qed.
Definition all_finite (t : tree) : bool := forallb finite (floats_in t).
Definition text_ok (s : pystr) : Prop := forallb scalar s = true.
Lemma key_ok s : text_ok (text s).
Proof.
  unfold text_ok, text. apply forallb_forall. intros c Hc. apply in_map_iff in Hc as (a & <- & _).
  assert (L : (N_of_ascii a < 256)%N) by (destruct a as [[] [] [] [] [] [] [] []]; reflexivity).
  unfold scalar, surrogate. lia.
Qed.
Lemma value_text f s r : text_ok s -> value float_of (S f) (quote s ++ r) = Some (JText s, r).
Proof.
  intros H. unfold quote. cbn [app value]. rewrite <- app_assoc. rewrite skip_none by reflexivity. change (QUOTE =? QUOTE) with true. cbv iota.
  cbn [app]. rewrite chars_quoted by exact H. reflexivity.
Qed.
Lemma value_number f c r : (c =? MINUS) || is_digit c = true -> value float_of (S f) (c :: r) = number float_of (c :: r).
Proof.
  intros H. assert (W : is_ws c = false) by (unfold is_ws, is_digit in *; lia). cbn [value]. rewrite skip_none by exact W. unfold is_digit in *.
  replace (c =? QUOTE) with false by lia. replace (c =? LBRACKET) with false by lia. replace (c =? LBRACE) with false by lia. rewrite H. reflexivity.
Qed.
Lemma first_digit ds r : forallb is_digit ds = true -> ds <> [] -> exists c t, ds ++ r = c :: t /\ is_digit c = true.
Proof. destruct ds as [|c t]; [congruence|]. cbn [forallb]. intros H _. apply andb_true_iff in H as [H _]. exists c, (t ++ r). split; [reflexivity|exact H]. Qed.
Lemma value_int f z r : stop r -> value float_of (S f) (int_repr z ++ r) = Some (JInt z, r).
Proof.
  intros S. rewrite <- (number_int float_of z r S). unfold int_repr. destruct (Z.ltb_spec z 0); [apply value_number; reflexivity|].
  destruct (digits_ok z) as (_ & D & _ & N); [lia|]. destruct (first_digit _ r D N) as (c & t & -> & Hc). apply value_number. rewrite Hc. apply orb_true_r.
Qed.
Lemma value_float f x r : stop r -> value float_of (S f) (float_text repr x ++ r) = if finite x then Some (JFloat x, r) else None.
Proof.
  intros S. unfold float_text, finite. destruct (Z.eqb_spec (d_exp x) 2047) as [E|E]; cbn [negb].
  - destruct (_ =? _); [destruct (_ =? _)|]; reflexivity.
  - destruct (RB x) as [L F]; [unfold finite; apply Z.eqb_neq in E; rewrite E; reflexivity|].
    rewrite <- (number_float float_of _ x r L F S). destruct L as (sg & ip & fp & ep & -> & Hs & [Di Ii] & _). rewrite <- !app_assoc.
    destruct Hs as [->| ->]; [|apply value_number; reflexivity]. cbn [app].
    destruct (first_digit ip (fp ++ ep ++ r) Di (int_part_not_nil _ Ii)) as (c & t & -> & Hc). apply value_number. rewrite Hc. apply orb_true_r.
Qed.
Definition reads_value (t : tree) : Prop := Forall text_ok (texts_in t) -> forall k f r, (size t <= f)%nat -> stop r ->
  value float_of f (dumps repr k t ++ r) = if all_finite t then Some (json_of t, r) else None.
Lemma stop_newline k r : stop (newline k ++ r). Proof. cbn. unfold is_digit. lia. Qed.
Lemma stop_comma r : stop (COMMA :: r). Proof. cbn. unfold is_digit. lia. Qed.
Lemma elements_ok k rest : forall l, Forall reads_value l -> Forall text_ok (flat_map texts_in l) -> l <> [] -> forall f,
  (fold_right (fun t n => S (size t) + n) 0 l <= f)%nat ->
  elements float_of f (join_with (COMMA :: newline (S k)) (map (dumps repr (S k)) l) ++ newline k ++ RBRACKET :: rest)
  = if forallb all_finite l then Some (map json_of l, rest) else None.
Proof.
  induction l as [|x l IH]; intros Hl Ht N f Hf; [congruence|]. inversion Hl as [|? ? Hx Hl']; subst.
  cbn [flat_map] in Ht. apply Forall_app in Ht as [Tx Ht]. cbn [fold_right] in Hf. destruct f as [|f]; [lia|].
  destruct l as [|y l].
  - cbn [map join_with elements forallb]. rewrite Hx; [|exact Tx|lia|apply stop_newline]. rewrite andb_true_r. destruct (all_finite x); [|reflexivity].
    rewrite skip_newline, skip_none by reflexivity. reflexivity.
  - cbn [map] in *. change (join_with ?s (?a :: ?b :: ?r)) with (a ++ s ++ join_with s (b :: r)). rewrite <- !app_assoc. cbn [elements].
    cbn [app]. rewrite Hx; [|exact Tx|lia|apply stop_comma]. cbn [forallb]. destruct (all_finite x); [|reflexivity]. cbn [andb].
    rewrite skip_none by reflexivity. change (COMMA =? RBRACKET) with false. change (COMMA =? COMMA) with true. cbv iota.
    rewrite elements_newline. rewrite IH; [|exact Hl'|exact Ht|discriminate|lia]. cbn [forallb]. destruct (_ && _); reflexivity.
Qed.
Definition member (k : nat) (kt : string * tree) : pystr := quote (text (fst kt)) ++ [COLON; 32] ++ dumps repr (S k) (snd kt).
Lemma members_ok k rest : forall l, Forall (fun kt => reads_value (snd kt)) l -> Forall text_ok (flat_map (fun kt => texts_in (snd kt)) l) -> l <> [] -> forall f,
  (fold_right (fun kt n => S (size (snd kt)) + n) 0 l <= f)%nat ->
  members float_of f (join_with (COMMA :: newline (S k)) (map (member k) l) ++ newline k ++ RBRACE :: rest)
  = if forallb (fun kt => all_finite (snd kt)) l then Some (map (fun kt => (text (fst kt), json_of (snd kt))) l, rest) else None.
Proof.
  induction l as [|[n x] l IH]; intros Hl Ht N f Hf; [congruence|]. inversion Hl as [|? ? Hx Hl']; subst. cbn [snd] in Hx.
  cbn [flat_map snd] in Ht. apply Forall_app in Ht as [Tx Ht]. cbn [fold_right snd] in Hf. destruct f as [|f]; [lia|].
  assert (M : forall s, stop s -> members float_of (S f) (member k (n, x) ++ s) =
    if all_finite x then match skip_ws s with
      | c :: r' => if c =? RBRACE then Some ([(text n, json_of x)], r')
                   else if c =? COMMA then match members float_of f r' with Some (l, r'') => Some ((text n, json_of x) :: l, r'') | None => None end
                   else None
      | [] => None end else None).
  { intros s Hs. unfold member, quote. cbn [fst snd app]. rewrite <- !app_assoc. cbn [members]. rewrite skip_none by reflexivity.
    change (QUOTE =? QUOTE) with true. cbv iota. cbn [app]. rewrite chars_quoted by apply key_ok. rewrite skip_none by reflexivity.
    change (COLON =? COLON) with true. cbv iota. rewrite (value_ws float_of f (32 :: dumps repr (S k) x ++ s) (dumps repr (S k) x ++ s)) by reflexivity.
    rewrite Hx; [|exact Tx|lia|exact Hs]. destruct (all_finite x); reflexivity. }
  destruct l as [|y l].
  - cbn [map join_with forallb]. rewrite M by apply stop_newline. cbn [snd]. rewrite andb_true_r. destruct (all_finite x); [|reflexivity].
    rewrite skip_newline, skip_none by reflexivity. reflexivity.
  - cbn [map] in *. change (join_with ?s (?a :: ?b :: ?r)) with (a ++ s ++ join_with s (b :: r)). rewrite <- !app_assoc.
    cbn [app]. rewrite M by apply stop_comma. cbn [forallb snd]. destruct (all_finite x); [|reflexivity]. cbn [andb].
    rewrite skip_none by reflexivity. change (COMMA =? RBRACE) with false. change (COMMA =? COMMA) with true. cbv iota.
    rewrite members_newline. rewrite IH; [|exact Hl'|exact Ht|discriminate|lia]. cbn [forallb fst]. destruct (_ && _); reflexivity.
Qed.
Lemma forallb_flat_map {A B} (p : B -> bool) (g : A -> list B) l : forallb p (flat_map g l) = forallb (fun a => forallb p (g a)) l.
Proof. induction l as [|a l IH]; [reflexivity|]. cbn [flat_map forallb]. rewrite forallb_app, IH. reflexivity. Qed.
Lemma join_begins sep s l : begins s -> begins (join_with sep (s :: l)).
Proof. intros B. destruct l; [exact B|]. change (begins (s ++ sep ++ join_with sep (p :: l))). apply begins_app, B. Qed.
Lemma value_ok t : reads_value t.
Proof.
  induction t as [|z|x|s|l IH|l IH] using tree_rec'; intros Ht k f r Hf Hs; (destruct f as [|f]; [cbn [size] in Hf; lia|]).
  - reflexivity.
  - apply value_int, Hs.
  - unfold all_finite. cbn [floats_in forallb]. rewrite andb_true_r. apply value_float, Hs.
  - cbn [texts_in] in Ht. inversion Ht as [|? ? T _]; subst. apply value_text, T.
  - cbn [size] in Hf. unfold all_finite. cbn [floats_in json_of dumps]. rewrite forallb_flat_map.
    destruct l as [|x l]; [reflexivity|]. unfold enclose. cbn [map]. cbn [app value]. rewrite skip_none by reflexivity.
    change (LBRACKET =? QUOTE) with false. change (LBRACKET =? LBRACKET) with true. cbv iota.
    rewrite <- !app_assoc, skip_newline.
    pose proof (join_begins (COMMA :: newline (S k)) (dumps repr (S k) x) (map (dumps repr (S k)) l) (begins_dumps x (S k))) as (c & q & Ec & Wc & Nc & _).
    rewrite Ec at 1. cbn [app]. rewrite skip_none by exact Wc. apply Z.eqb_neq in Nc. rewrite Nc. rewrite elements_newline.
    pose proof (elements_ok k r (x :: l) IH Ht ltac:(discriminate) f ltac:(cbn [fold_right] in *; lia)) as E. cbn [map] in E. cbn [app]. rewrite E.
    change (fun a => forallb finite (floats_in a)) with all_finite. destruct (forallb all_finite (x :: l)); reflexivity.
  - cbn [size] in Hf. unfold all_finite. cbn [floats_in json_of dumps]. rewrite forallb_flat_map.
    change (fun kt : string * tree => quote (text (fst kt)) ++ [COLON; 32] ++ dumps repr (S k) (snd kt)) with (member k).
    destruct l as [|x l]; [reflexivity|]. unfold enclose. cbn [map]. cbn [app value]. rewrite skip_none by reflexivity.
    change (LBRACE =? QUOTE) with false. change (LBRACE =? LBRACKET) with false. change (LBRACE =? LBRACE) with true. cbv iota.
    rewrite <- !app_assoc, skip_newline.
    assert (B : begins (member k x)) by (unfold member; begin_with).
    pose proof (join_begins (COMMA :: newline (S k)) _ (map (member k) l) B) as (c & q & Ec & Wc & _ & Nc).
    rewrite Ec at 1. cbn [app]. rewrite skip_none by exact Wc. apply Z.eqb_neq in Nc. rewrite Nc. rewrite members_newline.
    pose proof (members_ok k r (x :: l) IH Ht ltac:(discriminate) f ltac:(cbn [fold_right] in *; lia)) as E. cbn [map] in E. cbn [app]. match type of E with ?L = _ => match goal with |- context [members float_of f ?s] => change (members float_of f s) with L end end.
    rewrite E.
    change (fun a : string * tree => forallb finite (floats_in (snd a))) with (fun a : string * tree => all_finite (snd a)).
    destruct (forallb (fun a : string * tree => all_finite (snd a)) (x :: l)); reflexivity.
Qed.
Lemma loads_dumps t : Forall text_ok (texts_in t) -> loads float_of (dumps repr 0%nat t ++ [10]) = if all_finite t then Some (json_of t) else None.
Proof.
  intros H. unfold loads. rewrite (value_ok t H 0%nat); [|rewrite app_length; pose proof (size_length t 0%nat); lia|cbn; unfold is_digit; lia].
  destruct (all_finite t); reflexivity.
Qed.
End Dumped.
