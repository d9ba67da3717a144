(** * The text that [dat-to-json] prints: [json.dumps(tree, indent=2)] (/repo/src/genieutils/scripts.py:19)
    as CPython's json/encoder.py (3.11-3.13) makes it.

    A text is a list of code points.  [float.__repr__] is a parameter: theorems say what they
    need of it. *)
From Verif Require Import Base PyFloat PyStr FloatSpec FS Dump.
From Coq Require Import String Ascii.
Open Scope Z_scope.
Local Open Scope list_scope.
Local Notation length := List.length.

Definition text (s : string) : pystr := map (fun a => Z.of_N (N_of_ascii a)) (list_ascii_of_string s).
(** Names for code points. *)
Notation QUOTE := 34. Notation COMMA := 44. Notation MINUS := 45. Notation DOT := 46. Notation COLON := 58.
Notation LBRACKET := 91. Notation BACKSLASH := 92. Notation RBRACKET := 93. Notation LBRACE := 123. Notation RBRACE := 125.

(** [int.__repr__]: decimal digits, most significant first. *)
Fixpoint decimal (fuel : nat) (z : Z) : pystr :=
  match fuel with
  | O => []
  | S f => if z <? 10 then [48 + z] else decimal f (z / 10) ++ [48 + z mod 10]
  end.
Definition digits (z : Z) : pystr := decimal (S (Z.to_nat (Z.log2 z))) z.
Definition int_repr (z : Z) : pystr := if z <? 0 then MINUS :: digits (- z) else digits z.

(** encoder.py:30-35 and 46-69 ([ensure_ascii]): two-character escapes, [\uXXXX] for everything
    that is not printable ASCII, a surrogate pair beyond U+FFFF. *)
Definition hex (d : Z) : Z := if d <? 10 then 48 + d else 87 + d.
Definition u_escape (c : Z) : pystr :=
  [BACKSLASH; 117; hex (c / 4096 mod 16); hex (c / 256 mod 16); hex (c / 16 mod 16); hex (c mod 16)].
Definition escape (c : Z) : pystr :=
  if c =? QUOTE then [BACKSLASH; QUOTE]
  else if c =? BACKSLASH then [BACKSLASH; BACKSLASH]
  else if c =? 10 then [BACKSLASH; 110]
  else if c =? 13 then [BACKSLASH; 114]
  else if c =? 9 then [BACKSLASH; 116]
  else if c =? 12 then [BACKSLASH; 102]
  else if c =? 8 then [BACKSLASH; 98]
  else if (32 <=? c) && (c <=? 126) then [c]
  else if c <? 65536 then u_escape c
  else let n := c - 65536 in
       u_escape (55296 + n / 1024 mod 1024) ++ u_escape (56320 + n mod 1024).
Definition quote (s : pystr) : pystr := QUOTE :: flat_map escape s ++ [QUOTE].

(** encoder.py:223-244 floatstr *)
Definition float_text (repr : f64 -> pystr) (x : f64) : pystr :=
  if d_exp x =? 2047 then
    (if d_man x =? 0 then (if d_sign x =? 0 then text "Infinity" else text "-Infinity") else text "NaN")
  else repr x.

(** encoder.py:277-431 _make_iterencode with [indent=2]: separators "," and ": ". *)
Definition newline (level : nat) : pystr := 10 :: repeat 32 (2 * level).
Fixpoint join_with (sep : pystr) (l : list pystr) : pystr :=
  match l with
  | [] => []
  | [x] => x
  | x :: r => x ++ sep ++ join_with sep r
  end.
Definition enclose (opening closing : Z) (level : nat) (items : list pystr) : pystr :=
  match items with
  | [] => [opening; closing]
  | _ => opening :: newline (S level) ++ join_with (COMMA :: newline (S level)) items ++ newline level ++ [closing]
  end.
Fixpoint dumps (repr : f64 -> pystr) (level : nat) (t : tree) : pystr :=
  match t with
  | TNull => text "null"
  | TInt z => int_repr z
  | TFloat x => float_text repr x
  | TText s => quote s
  | TList l => enclose LBRACKET RBRACKET level (map (dumps repr (S level)) l)
  | TDict l => enclose LBRACE RBRACE level (map (fun kt => quote (text (fst kt)) ++ [COLON; 32] ++ dumps repr (S level) (snd kt)) l)
  end.
(** scripts.py:18-19: parse, dump, print (which adds a newline). *)
Definition printed (repr : f64 -> pystr) (inflate : bytes -> res bytes) (f : fs) (p : path) : res pystr :=
  match dat_to_json inflate f p with
  | Ok t => Ok (dumps repr 0 t ++ [10])
  | Err e => Err e
  end.

(** ** Specification: a JSON parser (RFC 8259) *)
Inductive json : Type :=
| JNull
| JBool (b : bool)
| JInt (z : Z)
| JFloat (x : f64)
| JText (s : pystr)
| JList (l : list json)
| JDict (l : list (pystr * json)).
Definition is_ws (c : Z) : bool := (c =? 32) || (c =? 10) || (c =? 13) || (c =? 9).
Fixpoint skip_ws (s : pystr) : pystr := match s with c :: r => if is_ws c then skip_ws r else s | [] => [] end.
Definition is_digit (c : Z) : bool := (48 <=? c) && (c <=? 57).
Fixpoint take_digits (s : pystr) : pystr * pystr :=
  match s with
  | c :: r => if is_digit c then let '(d, r') := take_digits r in (c :: d, r') else ([], s)
  | [] => ([], [])
  end.
Definition decimal_value (ds : pystr) : Z := fold_left (fun a c => 10 * a + (c - 48)) ds 0.
(** The integer part: digits, no leading zero. *)
Definition int_part (ds : pystr) : bool := match ds with [] => false | [_] => true | c :: _ => negb (c =? 48) end.
Definition is_nil {A} (l : list A) : bool := match l with [] => true | _ => false end.
Definition take_frac (s : pystr) : option (pystr * pystr) :=
  match s with
  | c :: r => if c =? DOT then (let '(d, r') := take_digits r in if is_nil d then None else Some (c :: d, r')) else Some ([], s)
  | [] => Some ([], [])
  end.
Definition take_exp (s : pystr) : option (pystr * pystr) :=
  match s with
  | c :: r => if (c =? 101) || (c =? 69) then
      let '(sg, r1) := match r with g :: r1 => if (g =? 43) || (g =? MINUS) then ([g], r1) else ([], r) | [] => ([], []) end in
      let '(d, r') := take_digits r1 in if is_nil d then None else Some (c :: sg ++ d, r')
      else Some ([], s)
  | [] => Some ([], [])
  end.
Definition take_sign (s : pystr) : pystr * pystr := match s with c :: r => if c =? MINUS then ([c], r) else ([], s) | [] => ([], []) end.
(** A number with fraction or exponent is a float, given by [float_of]; the others are integers. *)
Definition number (float_of : pystr -> option f64) (s : pystr) : option (json * pystr) :=
  let '(sg, s1) := take_sign s in
  let '(ip, s2) := take_digits s1 in
  if int_part ip then
    match take_frac s2 with
    | None => None
    | Some (fp, s3) =>
        match take_exp s3 with
        | None => None
        | Some (ep, s4) =>
            if is_nil fp && is_nil ep then Some (JInt (if is_nil sg then decimal_value ip else - decimal_value ip), s4)
            else match float_of (sg ++ ip ++ fp ++ ep) with Some x => Some (JFloat x, s4) | None => None end
        end
    end
  else None.
Definition unhex (c : Z) : option Z :=
  if is_digit c then Some (c - 48) else if (97 <=? c) && (c <=? 102) then Some (c - 87) else if (65 <=? c) && (c <=? 70) then Some (c - 55) else None.
Definition hex4 (a b c d : Z) : option Z :=
  match unhex a, unhex b, unhex c, unhex d with
  | Some a, Some b, Some c, Some d => Some (4096 * a + 256 * b + 16 * c + d)
  | _, _, _, _ => None
  end.
Definition unescape (c : Z) : option Z :=
  if (c =? QUOTE) || (c =? BACKSLASH) || (c =? 47) then Some c
  else if c =? 98 then Some 8 else if c =? 102 then Some 12 else if c =? 110 then Some 10
  else if c =? 114 then Some 13 else if c =? 116 then Some 9 else None.
Definition high (c : Z) : bool := (55296 <=? c) && (c <=? 56319).
Definition low (c : Z) : bool := (56320 <=? c) && (c <=? 57343).
Definition add_char (c : Z) (o : option (pystr * pystr)) : option (pystr * pystr) :=
  match o with Some (s, r) => Some (c :: s, r) | None => None end.
(** The rest of a string, behind the opening quote. *)
Fixpoint chars (s : pystr) : option (pystr * pystr) :=
  match s with
  | [] => None
  | c :: r =>
      if c =? QUOTE then Some ([], r)
      else if c =? BACKSLASH then
        match r with
        | [] => None
        | e :: r1 =>
            if e =? 117 then
              match r1 with
              | a :: b :: c' :: d :: r2 =>
                  match hex4 a b c' d with
                  | None => None
                  | Some u =>
                      if high u then
                        match r2 with
                        | x :: y :: a2 :: b2 :: c2 :: d2 :: r3 =>
                            match (if (x =? BACKSLASH) && (y =? 117) then hex4 a2 b2 c2 d2 else None) with
                            | Some l => if low l then add_char (65536 + 1024 * (u - 55296) + (l - 56320)) (chars r3)
                                        else add_char u (chars r2)
                            | None => add_char u (chars r2)
                            end
                        | _ => add_char u (chars r2)
                        end
                      else add_char u (chars r2)
                  end
              | _ => None
              end
            else match unescape e with Some u => add_char u (chars r1) | None => None end
        end
      else if c <? 32 then None
      else add_char c (chars r)
  end.
Fixpoint drop_prefix (p s : pystr) : option pystr :=
  match p, s with
  | [], _ => Some s
  | a :: p', c :: s' => if a =? c then drop_prefix p' s' else None
  | _, [] => None
  end.
Definition word (w : string) (j : json) (s : pystr) : option (json * pystr) :=
  match drop_prefix (text w) s with Some r => Some (j, r) | None => None end.
(** Values, the elements of a list and the members of an object, behind the opening bracket. *)
Fixpoint value (float_of : pystr -> option f64) (fuel : nat) (s : pystr) : option (json * pystr) :=
  match fuel with
  | O => None
  | S f =>
      match skip_ws s with
      | [] => None
      | c :: r =>
          if c =? QUOTE then match chars r with Some (t, r') => Some (JText t, r') | None => None end
          else if c =? LBRACKET then
            match skip_ws r with
            | e :: r' => if e =? RBRACKET then Some (JList [], r')
                         else match elements float_of f r with Some (l, r') => Some (JList l, r') | None => None end
            | [] => None
            end
          else if c =? LBRACE then
            match skip_ws r with
            | e :: r' => if e =? RBRACE then Some (JDict [], r')
                         else match members float_of f r with Some (l, r') => Some (JDict l, r') | None => None end
            | [] => None
            end
          else if (c =? MINUS) || is_digit c then number float_of (c :: r)
          else if c =? 110 then word "null" JNull (c :: r)
          else if c =? 116 then word "true" (JBool true) (c :: r)
          else if c =? 102 then word "false" (JBool false) (c :: r)
          else None
      end
  end
with elements (float_of : pystr -> option f64) (fuel : nat) (s : pystr) : option (list json * pystr) :=
  match fuel with
  | O => None
  | S f =>
      match value float_of f s with
      | None => None
      | Some (j, r) =>
          match skip_ws r with
          | c :: r' => if c =? RBRACKET then Some ([j], r')
                       else if c =? COMMA then match elements float_of f r' with Some (l, r'') => Some (j :: l, r'') | None => None end
                       else None
          | [] => None
          end
      end
  end
with members (float_of : pystr -> option f64) (fuel : nat) (s : pystr) : option (list (pystr * json) * pystr) :=
  match fuel with
  | O => None
  | S f =>
      match skip_ws s with
      | q :: r0 =>
          if q =? QUOTE then
            match chars r0 with
            | None => None
            | Some (k, r1) =>
                match skip_ws r1 with
                | c :: r2 =>
                    if c =? COLON then
                      match value float_of f r2 with
                      | None => None
                      | Some (j, r) =>
                          match skip_ws r with
                          | c :: r' => if c =? RBRACE then Some ([(k, j)], r')
                                       else if c =? COMMA then match members float_of f r' with Some (l, r'') => Some ((k, j) :: l, r'') | None => None end
                                       else None
                          | [] => None
                          end
                      end
                    else None
                | [] => None
                end
            end
          else None
      | [] => None
      end
  end.
(** A JSON text is a value with white space around it. *)
Definition loads (float_of : pystr -> option f64) (s : pystr) : option json :=
  match value float_of (2 * length s) s with
  | Some (j, r) => match skip_ws r with [] => Some j | _ => None end
  | None => None
  end.

(** ** What is to be read back *)
Fixpoint json_of (t : tree) : json :=
  match t with
  | TNull => JNull
  | TInt z => JInt z
  | TFloat x => JFloat x
  | TText s => JText s
  | TList l => JList (map json_of l)
  | TDict l => JDict (map (fun kt => (text (fst kt), json_of (snd kt))) l)
  end.
(** The floats of a tree, its texts. *)
Fixpoint floats_in (t : tree) : list f64 :=
  match t with
  | TFloat x => [x]
  | TList l => flat_map floats_in l
  | TDict l => flat_map (fun kt => floats_in (snd kt)) l
  | _ => []
  end.
Fixpoint texts_in (t : tree) : list pystr :=
  match t with
  | TText s => [s]
  | TList l => flat_map texts_in l
  | TDict l => flat_map (fun kt => texts_in (snd kt)) l
  | _ => []
  end.
Definition finite (x : f64) : bool := negb (d_exp x =? 2047).
(** Float literals: a JSON number with a fraction or an exponent. *)
Definition float_literal (t : pystr) : Prop := exists sg ip fp ep,
  t = sg ++ ip ++ fp ++ ep /\ (sg = [] \/ sg = [MINUS]) /\
  (forallb is_digit ip = true /\ int_part ip = true) /\
  (fp = [] \/ exists d, fp = DOT :: d /\ d <> [] /\ forallb is_digit d = true) /\
  (ep = [] \/ exists e g d, ep = e :: g ++ d /\ (e = 101 \/ e = 69) /\ (g = [] \/ g = [43] \/ g = [MINUS]) /\ d <> [] /\ forallb is_digit d = true) /\
  (fp <> [] \/ ep <> []).
(** [float(repr(x)) == x], and [repr(x)] is a float literal, for finite [x]. *)
Definition reads_back (repr : f64 -> pystr) (float_of : pystr -> option f64) : Prop :=
  forall x, finite x = true -> float_literal (repr x) /\ float_of (repr x) = Some x.
(** No object has two members of the same name (a reader would keep only one of them). *)
Fixpoint no_repeats (l : list pystr) : bool :=
  match l with [] => true | k :: r => negb (existsb (fun k' => if list_eq_dec Z.eq_dec k k' then true else false) r) && no_repeats r end.
Fixpoint distinct (j : json) : bool :=
  match j with
  | JList l => forallb distinct l
  | JDict l => no_repeats (map fst l) && forallb (fun kj => distinct (snd kj)) l
  | _ => true
  end.
(** A decimal literal that is exactly the number [x] (finite numbers are multiples of 2^-1074 =
    5^1074 * 10^-1074): one way to meet [reads_back].  Python prints the shortest one. *)
Definition exact_repr (x : f64) : pystr :=
  (if d_sign x =? 0 then [] else [MINUS]) ++ digits (f64_mag x * 5 ^ 1074) ++ text "e-1074".
(** Its inverse. *)
Definition f64_of_mag (s m : Z) : f64 :=
  if m <? 2 ^ 52 then f64_of_bits (s * 2 ^ 63 + m)
  else let e := Z.log2 m - 51 in f64_of_bits (s * 2 ^ 63 + e * 2 ^ 52 + (m / 2 ^ (e - 1) - 2 ^ 52)).
Definition exact_float (t : pystr) : option f64 :=
  let '(sg, r) := take_sign t in
  let '(ds, _) := take_digits r in
  Some (f64_of_mag (if is_nil sg then 0 else 1) (decimal_value ds / 5 ^ 1074)).
