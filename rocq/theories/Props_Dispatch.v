(** Props_Dispatch.v - property theorem C40 (function and project registries). *)
From Verif Require Import Base TextModel DispatchModel DispatchProofs.

(** C40. For every registry and request: running a task on a patch calls exactly the functions registered for that task (up to
    case) and that coordinate system, in order of registration, and stops the program when there is none; a named function
    is the first with that name; registering projects succeeds exactly when no function is null and no two names agree up to
    case, and then the project run is the one with the requested name. *)
Theorem C40_dispatch :
  (forall db task coord calls, run_func_PtoV db (Some task) coord = Ok calls <-> selected task coord db calls /\ calls <> []) /\
  (forall db task coord, run_func_PtoV db (Some task) coord = Abort <->
     forall e, In e db -> ~ (same_name (fn_task e) task /\ fn_coord e = coord)) /\
  (forall name db o, get_func_Patch2Pdouble (Some name) db = o <->
     match o with
     | Some f => exists l e r, db = l ++ e :: r /\ nf_f e = f /\ same_name (nf_name e) name /\
                               forall x, In x l -> ~ same_name (nf_name x) name
     | None => forall x, In x db -> ~ same_name (nf_name x) name
     end) /\
  (forall l, (exists db, add_projects [] l = Ok db) <->
     ((forall f n d, In (f, n, d) l -> f <> None) /\
      forall i j a b, nth_error (map (fun t => snd (fst t)) l) i = Some a ->
        nth_error (map (fun t => snd (fst t)) l) j = Some b -> same_name a b -> i = j)) /\
  (forall l db name f, add_projects [] l = Ok db ->
     (main_project db (Some name) = Ok f <-> exists n d, In (Some f, n, d) l /\ same_name n name)).
Proof.
  exact (conj (fun db t c => proj1 (proj2 (run_func_spec db t c)))
        (conj (fun db t c => proj2 (proj2 (run_func_spec db t c)))
        (conj get_func_spec (conj add_projects_abort main_project_spec)))).
Qed.
Print Assumptions C40_dispatch.
Example C40_ex :
  run_func_PtoV [mkFn 1 (S_ "fill") 0; mkFn 2 (S_ "Make") 0; mkFn 3 (S_ "make") 1; mkFn 4 (S_ "MAKE") 0] (Some (S_ "make")) 0 = Ok [2; 4] /\
  add_projects [] [(Some 1, S_ "a", S_ ""); (Some 2, S_ "A", S_ "")] = Abort /\
  main_project [mkProj (S_ "BH_NS") (S_ "") 7] (Some (S_ "bh_ns")) = Ok 7.
Proof. repeat split. Qed.
