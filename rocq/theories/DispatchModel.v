(** DispatchModel.v - the function and project registries:
      Src/Main/Modules/Utilities/function_managing.c  add_func_PtoV, run_func_PtoV,
                                                      add_func_Patch2Pdouble, get_func_Patch2Pdouble
      Src/Main/Core/projects.c                        add_project, get_project
      Src/Main/Core/main.c                            choosing the project
    SIMPLIFICATION: a function pointer is a number ([None] the null pointer); allocation never fails; what a registered
    function does is left abstract, so running one is recorded as an event. *)
From Verif Require Import Base TextModel.

Record func_entry := mkFn { fn_f : nat; fn_task : str; fn_coord : nat }.

(** function_managing.c:15-26 add_func_PtoV with alloc_sFunc_PtoV (125-143): appended before the null end. *)
Definition add_func_PtoV (db : list func_entry) (f : nat) (task : str) (coord : nat) : list func_entry :=
  db ++ [mkFn f task coord].

(** The loop of function_managing.c:37-42: the calls made, in order. *)
Fixpoint run_loop (db : list func_entry) (task : option str) (coord : nat) : list nat :=
  match db with
  | [] => []
  | e :: r =>
      if strcmp_i (Some (fn_task e)) task && (fn_coord e =? coord)%nat
      then fn_f e :: run_loop r task coord
      else run_loop r task coord
  end.

(** function_managing.c:28-46 run_func_PtoV on a patch with coordinate system [coord]. The data base is null until the first
    registration (init_func_PtoV, 9-12). *)
Definition run_func_PtoV (db : list func_entry) (task : option str) (coord : nat) : outcome (list nat) :=
  match db with
  | [] => Abort
  | _ => let calls := run_loop db task coord in
         match calls with [] => Abort | _ => Ok calls end
  end.

(** function_managing.c:55-65, 73-87: functions with a name *)
Record named_func := mkNF { nf_f : nat; nf_name : str }.
Definition add_func_Patch2Pdouble (db : list named_func) (f : nat) (name : str) : list named_func := db ++ [mkNF f name].
Fixpoint get_func_Patch2Pdouble (name : option str) (db : list named_func) : option nat :=
  match db with
  | [] => None
  | e :: r => if strcmp_i (Some (nf_name e)) name then Some (nf_f e) else get_func_Patch2Pdouble name r
  end.

(** projects.c *)
Record project := mkProj { pj_name : str; pj_des : str; pj_func : nat }.
(** projects.c:67-80 get_project *)
Fixpoint get_project (db : list project) (name : option str) : option project :=
  match db with
  | [] => None
  | p :: r => if strcmp_i (Some (pj_name p)) name then Some p else get_project r name
  end.
(** projects.c:27-44 add_project *)
Definition add_project (db : list project) (f : option nat) (name des : str) : outcome (list project) :=
  match f with
  | None => Abort
  | Some f =>
      match get_project db (Some name) with
      | Some _ => Abort
      | None => Ok (db ++ [mkProj name des f])
      end
  end.
(** create_db_projects: a sequence of add_project calls *)
Fixpoint add_projects (db : list project) (l : list (option nat * str * str)) : outcome (list project) :=
  match l with
  | [] => Ok db
  | (f, name, des) :: r => obind (add_project db f name des) (fun db' => add_projects db' r)
  end.
(** main.c:27-35: find the project called [name] and run it (the value of parameter "Project"; null when there is none) *)
Definition main_project (db : list project) (name : option str) : outcome nat :=
  match get_project db name with
  | None => Abort
  | Some p => Ok (pj_func p)
  end.
