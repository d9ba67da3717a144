(** * Model of /repo/src/genieutils/common.py

    Writers are methods of [GenieClass] that do not use [self]; readers are methods
    of [ByteHandler] and are state-passing functions over [handler]. *)
From Verif Require Import Base PyInt PyFloat PyStr PyStruct DataTypes Versions.
From Coq Require Import String.
Open Scope Z_scope.
Local Open Scope list_scope.

(** common.py:8-10 *)
Definition TILE_TYPE_COUNT : Z := 19.
Definition TERRAIN_COUNT : Z := 200.
Definition TERRAIN_UNITS_SIZE : Z := 30.

(** common.py:13-23, class UnitType(IntEnum) *)
Definition UnitType_EyeCandy : Z := 10.
Definition UnitType_Trees : Z := 15.
Definition UnitType_Flag : Z := 20.
Definition UnitType_DeadFish : Z := 30.
Definition UnitType_Bird : Z := 40.
Definition UnitType_Combatant : Z := 50.
Definition UnitType_Projectile : Z := 60.
Definition UnitType_Creatable : Z := 70.
Definition UnitType_Building : Z := 80.
Definition UnitType_AoeTrees : Z := 90.

(** Python truthiness of an int, [len], list indexing. *)
Definition truthy (z : Z) : bool := negb (z =? 0).
Definition len {A} (l : list A) : Z := Z.of_nat (List.length l).
Definition is_some {A} (o : option A) : bool := match o with Some _ => true | None => false end.
Definition nonempty {A} (l : list A) : bool := match l with [] => false | _ => true end.
(** [l[i]] for a literal non-negative index. *)
Definition py_index {A} (l : list A) (i : nat) : res A :=
  match nth_error l i with Some a => Ok a | None => Err IndexError end.

(** Sequencing of computations that may raise. *)
Notation "x <-- m ;;; k" := (rbind m (fun x => k))
  (at level 61, m at next level, right associativity).
Notation "' p <-- m ;;; k" := (rbind m (fun p => k))
  (at level 61, p pattern, m at next level, right associativity).
(** [assert c] (assertions enabled). *)
Definition py_assert (c : bool) : res unit := if c then Ok tt else Err AssertionError.

(** ** class GenieClass (common.py:26-83): writers *)

(** common.py:53-56 write_int_16 ([if_] defaults to True). *)
Definition write_int_16 (value : Z) (signed : bool) (if_ : bool) : res bytes :=
  if negb if_ then Ok [] else Int_to_bytes value 2 signed.

(** common.py:38-42 write_debug_string *)
Definition write_debug_string (value : pystr) : res bytes :=
  encoded <-- str_encode value ;;;
  (write_int_16 2656 (* 0x0A60 *) false true
   +++ (write_int_16 (len encoded) false true +++ Ok encoded)).

(** common.py:44-45 write_string *)
Definition write_string (length : nat) (value : pystr) : res bytes :=
  String_to_bytes value (Some length).

(** common.py:47-48 write_int_8 *)
Definition write_int_8 (value : Z) : res bytes := Int_to_bytes value 1 false.

(** common.py:50-51 write_int_8_array *)
Definition write_int_8_array (value : list Z) : res bytes := join (map write_int_8 value).

(** common.py:58-59 write_int_16_array *)
Definition write_int_16_array (value : list Z) : res bytes :=
  join (map (fun v => write_int_16 v true true) value).

(** common.py:61-62 write_int_32 *)
Definition write_int_32 (value : Z) (signed : bool) : res bytes := Int_to_bytes value 4 signed.

(** common.py:64-65 write_int_32_array *)
Definition write_int_32_array (value : list Z) : res bytes :=
  join (map (fun v => write_int_32 v true) value).

(** common.py:67-68 write_float (little-endian host, see DESIGN.md) *)
Definition write_float (value : f64) : res bytes := Float_to_bytes LittleEndian value.

(** common.py:70-71 write_float_array *)
Definition write_float_array (value : list f64) : res bytes := join (map write_float value).

(** common.py:73-77 write_class.  The class is passed as its [to_bytes]; the branch on
    an empty result returns the same empty bytes. *)
Definition write_class {A} (to_bytes : A -> Version -> res bytes) (value : A) (version : Version)
  : res bytes :=
  retval <-- to_bytes value version ;;;
  (if nonempty retval then Ok retval else Ok []).

(** common.py:79-83 write_class_array.  Lists of records without None are passed
    through [map Some]. *)
Definition write_class_array {A} (to_bytes : A -> Version -> res bytes)
    (value : list (option A)) (version : Version) : res bytes :=
  retval <-- join (flat_map (fun v => match v with
                                      | Some a => [write_class to_bytes a version]
                                      | None => []
                                      end) value) ;;;
  (if nonempty retval then Ok retval else Ok []).

(** ** class ByteHandler (common.py:89-278): readers *)

(** Ghost events: situations in which a read drops information. *)
Inductive loss : Set :=
| ShortRead        (* a slice shorter than requested *)
| TrailingNul      (* NUL bytes stripped from a debug string *)
| NegativeCount    (* range() of a negative number *)
| PointerNot01     (* a presence pointer other than 0 and 1 *)
| SNaNQuieted      (* a signalling NaN became quiet *)
| TerrainCount.    (* a terrain count without terrain restrictions (datfile.py:66) *)

(** common.py:89-93 ByteHandler: content, offset, version; [losses] is ghost state that no
    modelled function reads. *)
Record handler : Set := mkHandler {
  h_content : bytes;
  h_offset : nat;
  h_version : Version;
  h_losses : list loss }.

(** common.py:90-93 ByteHandler.__init__ *)
Definition new_handler (content : bytes) : handler := mkHandler content 0 UNDEFINED [].

(** A method that reads: returns a value and the new state, or raises. *)
Definition rd (A : Type) := handler -> res (A * handler).
Definition ret {A} (a : A) : rd A := fun h => Ok (a, h).
Definition bind {A B} (m : rd A) (k : A -> rd B) : rd B :=
  fun h => match m h with Ok (a, h') => k a h' | Err e => Err e end.
Definition raise {A} (e : exn) : rd A := fun _ => Err e.
Definition lift {A} (r : res A) : rd A := fun h => match r with Ok a => Ok (a, h) | Err e => Err e end.
Notation "x <- m ;; k" := (bind m (fun x => k))
  (at level 61, m at next level, right associativity).
Notation "' p <- m ;; k" := (bind m (fun p => k))
  (at level 61, p pattern, m at next level, right associativity).

(** [content.version], [content.version = v] *)
Definition get_version : rd Version := fun h => Ok (h_version h, h).
Definition set_version (v : Version) : rd unit :=
  fun h => Ok (tt, mkHandler (h_content h) (h_offset h) v (h_losses h)).
(** ghost *)
Definition note (c : bool) (l : loss) : rd unit :=
  fun h => Ok (tt, if c then mkHandler (h_content h) (h_offset h) (h_version h) (l :: h_losses h) else h).

(** common.py:95-99 consume_range: slicing past the end gives a shorter view, the
    offset advances all the same. *)
Definition slice (content : bytes) (start n : nat) : bytes := firstn n (skipn start content).
Definition consume_slice (n : nat) : rd bytes := fun h =>
  Ok (slice (h_content h) (h_offset h) n,
      mkHandler (h_content h) (h_offset h + n) (h_version h) (h_losses h)).
Definition consume_range (n : nat) : rd bytes :=
  bs <- consume_slice n ;;
  _ <- note (Nat.ltb (List.length bs) n) ShortRead ;;
  ret bs.

(** common.py:161-162 read_int_16 *)
Definition read_int_16 (signed : bool) : rd Z :=
  bs <- consume_range 2 ;; ret (Int_from_bytes bs signed).

(** ghost: the slice ends in a NUL byte *)
Definition ends_in_nul (bs : bytes) : bool := byte_eqb (last bs (byte_of 1)) (byte_of 0).

(** common.py:101-105 read_debug_string *)
Definition read_debug_string : rd pystr :=
  tmp_size <- read_int_16 false ;;
  _ <- lift (py_assert (tmp_size =? 2656)) ;;
  size <- read_int_16 false ;;
  bs <- consume_range (Z.to_nat size) ;;
  _ <- note (ends_in_nul bs) TrailingNul ;;
  lift (String_from_bytes bs).

(** common.py:107-108 read_string *)
Definition read_string (length : nat) : rd pystr :=
  bs <- consume_range length ;; lift (String_from_bytes bs).

(** common.py:110-111 read_int_8 *)
Definition read_int_8 : rd Z := bs <- consume_range 1 ;; ret (Int_from_bytes bs false).

(** [for i in range(size): elements.append(m())] *)
Fixpoint loop {A} (n : nat) (m : rd A) : rd (list A) :=
  match n with
  | O => ret []
  | S n' => e <- m ;; r <- loop n' m ;; ret (e :: r)
  end.
Definition for_range {A} (size : Z) (m : rd A) : rd (list A) :=
  _ <- note (size <? 0) NegativeCount ;; loop (Z.to_nat size) m.

(** common.py:113-117 read_int_8_array *)
Definition read_int_8_array (size : Z) : rd (list Z) := for_range size read_int_8.
(** common.py:119-159 read_int_8_array_2/3/5/6/10 *)
Definition read_int_8_array_2 : rd (list Z) :=
  e0 <- read_int_8 ;; e1 <- read_int_8 ;; ret [e0; e1].
Definition read_int_8_array_3 : rd (list Z) :=
  e0 <- read_int_8 ;; e1 <- read_int_8 ;; e2 <- read_int_8 ;; ret [e0; e1; e2].
Definition read_int_8_array_5 : rd (list Z) :=
  e0 <- read_int_8 ;; e1 <- read_int_8 ;; e2 <- read_int_8 ;; e3 <- read_int_8 ;;
  e4 <- read_int_8 ;; ret [e0; e1; e2; e3; e4].
Definition read_int_8_array_6 : rd (list Z) :=
  e0 <- read_int_8 ;; e1 <- read_int_8 ;; e2 <- read_int_8 ;; e3 <- read_int_8 ;;
  e4 <- read_int_8 ;; e5 <- read_int_8 ;; ret [e0; e1; e2; e3; e4; e5].
Definition read_int_8_array_10 : rd (list Z) :=
  e0 <- read_int_8 ;; e1 <- read_int_8 ;; e2 <- read_int_8 ;; e3 <- read_int_8 ;;
  e4 <- read_int_8 ;; e5 <- read_int_8 ;; e6 <- read_int_8 ;; e7 <- read_int_8 ;;
  e8 <- read_int_8 ;; e9 <- read_int_8 ;; ret [e0; e1; e2; e3; e4; e5; e6; e7; e8; e9].

(** common.py:164-168 read_int_16_array *)
Definition read_int_16_array (size : Z) : rd (list Z) := for_range size (read_int_16 true).
(** common.py:170-195 read_int_16_array_2/3/4/6 *)
Definition read_int_16_array_2 : rd (list Z) :=
  e0 <- read_int_16 true ;; e1 <- read_int_16 true ;; ret [e0; e1].
Definition read_int_16_array_3 : rd (list Z) :=
  e0 <- read_int_16 true ;; e1 <- read_int_16 true ;; e2 <- read_int_16 true ;; ret [e0; e1; e2].
Definition read_int_16_array_4 : rd (list Z) :=
  e0 <- read_int_16 true ;; e1 <- read_int_16 true ;; e2 <- read_int_16 true ;;
  e3 <- read_int_16 true ;; ret [e0; e1; e2; e3].
Definition read_int_16_array_6 : rd (list Z) :=
  e0 <- read_int_16 true ;; e1 <- read_int_16 true ;; e2 <- read_int_16 true ;;
  e3 <- read_int_16 true ;; e4 <- read_int_16 true ;; e5 <- read_int_16 true ;;
  ret [e0; e1; e2; e3; e4; e5].

(** common.py:197-198 read_int_32 *)
Definition read_int_32 (signed : bool) : rd Z :=
  bs <- consume_range 4 ;; ret (Int_from_bytes bs signed).
(** common.py:200-204 read_int_32_array *)
Definition read_int_32_array (size : Z) : rd (list Z) := for_range size (read_int_32 true).
(** common.py:206-218 read_int_32_array_10 *)
Definition read_int_32_array_10 : rd (list Z) :=
  e0 <- read_int_32 true ;; e1 <- read_int_32 true ;; e2 <- read_int_32 true ;;
  e3 <- read_int_32 true ;; e4 <- read_int_32 true ;; e5 <- read_int_32 true ;;
  e6 <- read_int_32 true ;; e7 <- read_int_32 true ;; e8 <- read_int_32 true ;;
  e9 <- read_int_32 true ;; ret [e0; e1; e2; e3; e4; e5; e6; e7; e8; e9].

(** common.py:220-221 read_float (little-endian host) *)
Definition read_float : rd f64 :=
  bs <- consume_range 4 ;;
  _ <- note (Nat.eqb (List.length bs) 4 && f32_snan (le_value bs)) SNaNQuieted ;;
  lift (Float_from_bytes LittleEndian bs).
(** common.py:223-227 read_float_array *)
Definition read_float_array (size : Z) : rd (list f64) := for_range size read_float.
(** common.py:229-238 read_float_array_2/3 *)
Definition read_float_array_2 : rd (list f64) :=
  e0 <- read_float ;; e1 <- read_float ;; ret [e0; e1].
Definition read_float_array_3 : rd (list f64) :=
  e0 <- read_float ;; e1 <- read_float ;; e2 <- read_float ;; ret [e0; e1; e2].

(** common.py:240-242 read_class; a class is passed as its [from_bytes]. *)
Definition read_class {A} (from_bytes : rd A) : rd A := element <- from_bytes ;; ret element.
(** common.py:244-249 read_class_array *)
Definition read_class_array {A} (from_bytes : rd A) (size : Z) : rd (list A) :=
  for_range size from_bytes.
(** common.py:244-249 read_class_array, called with a count that the caller keeps in a field of
    its own: the same function, except that a negative count is not recorded as a loss. *)
Definition read_class_array_kept {A} (from_bytes : rd A) (size : Z) : rd (list A) :=
  loop (Z.to_nat size) from_bytes.
(** common.py:251-262 read_class_array_3/4 *)
Definition read_class_array_3 {A} (from_bytes : rd A) : rd (list A) :=
  e0 <- from_bytes ;; e1 <- from_bytes ;; e2 <- from_bytes ;; ret [e0; e1; e2].
Definition read_class_array_4 {A} (from_bytes : rd A) : rd (list A) :=
  e0 <- from_bytes ;; e1 <- from_bytes ;; e2 <- from_bytes ;; e3 <- from_bytes ;; ret [e0; e1; e2; e3].

(** common.py:264-271 read_class_array_with_pointers: iteration [i] of the loop,
    [k] iterations left. *)
Fixpoint pointer_loop {A} (from_bytes : rd A) (pointers : list Z) (i k : nat) : rd (list (option A)) :=
  match k with
  | O => ret []
  | S k' =>
      p <- lift (py_index pointers i) ;;
      _ <- note (negb ((p =? 0) || (p =? 1))) PointerNot01 ;;
      element <- (if truthy p then e <- from_bytes ;; ret (Some e) else ret None) ;;
      r <- pointer_loop from_bytes pointers (S i) k' ;;
      ret (element :: r)
  end.
Definition read_class_array_with_pointers {A} (from_bytes : rd A) (size : Z) (pointers : list Z)
  : rd (list (option A)) :=
  _ <- note (size <? 0) NegativeCount ;;
  pointer_loop from_bytes pointers 0 (Z.to_nat size).

(** common.py:273-278 read_class_array_with_param *)
Definition read_class_array_with_param {A} (from_bytes_with_count : Z -> rd A) (size : Z)
    (terrains_used_1 : Z) : rd (list A) :=
  for_range size (from_bytes_with_count terrains_used_1).

(** [struct.unpack(FORMAT, content.consume_range(FORMAT_LENGTH))] (task.py, unit.py) *)
Definition read_struct (format : string) (n : nat) : rd (list pyval) :=
  bs <- consume_range n ;;
  _ <- note (struct_snan format bs) SNaNQuieted ;;
  lift (struct_unpack format bs).
