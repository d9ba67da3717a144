(** * Model of /repo/src/genieutils/unitheaders.py

    Transcribed statement by statement (tools/gen_model.py); readers and writers come
    from the Python [from_bytes*] and [to_bytes*] respectively. *)
From Verif Require Import Base PyInt PyFloat PyStr PyStruct DataTypes Versions Common.
From Verif Require Import M_Task.
From Coq Require Import String.
Open Scope Z_scope.
Local Open Scope list_scope.


(** unitheaders.py:9-11 class UnitHeaders *)
Record UnitHeaders : Set := mkUnitHeaders {
  UnitHeaders_exists_ : Z;
  UnitHeaders_task_list : option (list Task) }.

(** unitheaders.py:14-23 UnitHeaders.from_bytes *)
Definition UnitHeaders_from_bytes : rd UnitHeaders :=
  exists_ <- read_int_8 ;;
  let task_list : option (list Task) := None in
  task_list <-
    (if truthy exists_ then
      task_count <- read_int_16 true ;;
      task_list <- read_class_array Task_from_bytes task_count ;;
      let task_list := Some task_list in
      ret task_list
     else ret task_list) ;;
  ret {| UnitHeaders_exists_ := exists_;
     UnitHeaders_task_list := task_list |}.

(** unitheaders.py:25-30 UnitHeaders.to_bytes *)
Definition UnitHeaders_to_bytes (self : UnitHeaders) (version : Version) : res bytes :=
  join [
    write_int_8 (UnitHeaders_exists_ self);
    (if truthy (UnitHeaders_exists_ self) then match (UnitHeaders_task_list self) with Some task_list => write_int_16 (len task_list) true true | None => Ok [] end else Ok []);
    (if truthy (UnitHeaders_exists_ self) then match (UnitHeaders_task_list self) with Some task_list => write_class_array Task_to_bytes (map Some task_list) version | None => Ok [] end else Ok []) ].
