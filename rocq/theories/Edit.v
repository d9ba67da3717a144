(** * Programs that edit a loaded data file: the examples of /repo/README.md, as functions.

    The programs change objects in place; in the model they return the changed object, or the
    exception that stops the program before it saves. *)
From Verif Require Import Base Update.
From Verif Require Import M_Unit M_Civ M_Tech M_DatFile.
Open Scope Z_scope.
Local Open Scope list_scope.

(** [l[i] = z] for an index of the list. *)
Definition set_nth {A} (i : nat) (z : A) (l : list A) : list A := firstn i l ++ z :: skipn (S i) l.
(** [l[i]], for a natural index. *)
Definition get_nth {A} (i : nat) (l : list A) : res A :=
  match nth_error l i with Some a => Ok a | None => Err IndexError end.
(** [o.attribute] on something that may be [None]. *)
Definition the {A} (o : option A) : res A := match o with Some a => Ok a | None => Err AttributeError end.
(** [l.pop()]: what is left of the list. *)
Definition pop {A} (l : list A) : res (list A) := match l with [] => Err IndexError | _ => Ok (removelast l) end.

(** README.md:37 (Change cost of Loom): [data.techs[i].resource_costs[j].amount = a]. *)
Definition set_cost (i j : nat) (a : Z) (x : DatFile) : res DatFile :=
  rbind (get_nth i (DatFile_techs x)) (fun t =>
  rbind (get_nth j (Tech_resource_costs t)) (fun c =>
  Ok (with_DatFile_techs (set_nth i (with_Tech_resource_costs (set_nth j (with_ResearchResourceCost_amount a c) (Tech_resource_costs t)) t)
        (DatFile_techs x)) x))).

(** README.md:48 (Prevent Kings from garrisoning): [civ.units[k].bird.tasks.pop()]. *)
Definition pop_task (k : nat) (c : Civ) : res Civ :=
  rbind (get_nth k (Civ_units c)) (fun slot =>
  rbind (the slot) (fun u =>
  rbind (the (Unit_bird u)) (fun b =>
  rbind (pop (Bird_tasks b)) (fun tasks =>
  Ok (with_Civ_units (set_nth k (Some (with_Unit_bird (Some (with_Bird_tasks tasks b)) u)) (Civ_units c)) c))))).
(** README.md:47-48: [for civ in data.civs: ...]. *)
Fixpoint pop_tasks_of (k : nat) (l : list Civ) : res (list Civ) :=
  match l with
  | [] => Ok []
  | c :: l => rbind (pop_task k c) (fun c' => rbind (pop_tasks_of k l) (fun l' => Ok (c' :: l')))
  end.
Definition pop_tasks (k : nat) (x : DatFile) : res DatFile :=
  rbind (pop_tasks_of k (DatFile_civs x)) (fun l => Ok (with_DatFile_civs l x)).
