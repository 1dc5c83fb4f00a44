(** ParamIterModel.v - update_iteration_params, /repo/Src/Main/Core/parameters.c:897-1016. *)
From Verif Require Import Base ParamModel.

Section Iter.
Variable strtod : str -> dbl.
Variable fmt20 : dbl -> str.
(** The file system is abstract: make_directory(path,name) returns the path it created and the new
    file system (its own model is FolderModel.v); the shell command "cp" only changes the file system.
    sprintf(dir_name_format, stem, n0, n1, n2) is an arbitrary function of its arguments. *)
Variable FS : Type.
Variable mkdir : FS -> str -> str -> outcome (str * FS).
Variable shell_cp : FS -> str -> FS.
Variable dirname : str -> Z -> Z -> Z -> str.

(** PrefixIt, parameters.h:18: sprintf into prepar[PAR_LEN], PAR_LEN = 300 (parameters.h:4):
    a longer name is written past the buffer. *)
Definition prefix_it (prefix name : str) : outcome str :=
  if Nat.ltb (List.length (prefix ++ name)) 300 then Ok (prefix ++ name) else UB.

(** a C string pointer passed to "%s" or a path: null is UB *)
Definition deref (s : option str) : outcome str := match s with Some x => Ok x | None => UB end.

(** (Uint)Pgeti(name) *)
Definition get_uint (d : db) (name : str) (fatal : bool) : outcome Z :=
  do z <- get_I d name fatal; Ok (to_uint z).

(** the Pseti argument is an int: (int)iter + 1 *)
Definition set_int (d : db) (name : str) (z : Z) : outcome db := update_integer d name z.

(** parameters.c:934-939: top directory *)
Definition ensure_top (d : db) (fs : FS) (stem : option str) : outcome (db * FS) :=
  do top <- get_S d (S_ "top_directory") false;
  match top with
  | Some _ => Ok (d, fs)
  | None =>
    do root <- get_S d (S_ "relative_root_path") true;
    do root <- deref root;
    do stem <- deref stem;
    do pf <- mkdir fs root stem;
    do d' <- set_default d (S_ "top_directory") (Some (fst pf));
    Ok (d', snd pf)
  end.

(** folder name from n_a, n_b, n_c: parameters.c:963-966 and 979-986 *)
Definition folder_name (d : db) (stem : str) : outcome str :=
  do n0 <- get_uint d (S_ "n_a") false;
  do n1 <- get_uint d (S_ "n_b") false;
  do n2 <- get_uint d (S_ "n_c") false;
  Ok (dirname stem n0 n1 n2).

(** parameters.c:988-1013: new folder when the resolution changed or at iteration 0 *)
Definition new_folder (d : db) (fs : FS) (prefix name parfile : str) : outcome (db * FS) :=
  do nm <- prefix_it prefix (S_ "resolution_iteration");
  do d <- set_int d nm 0;
  do top <- get_S d (S_ "top_directory") true;
  do top <- deref top;
  do pf <- mkdir fs top name;
  do nm <- prefix_it prefix (S_ "my_directory");
  do d <- update_string d nm (Some (fst pf));
  do pf2 <- mkdir (snd pf) (fst pf) (S_ "Diagnostics");
  do nm <- prefix_it prefix (S_ "Diagnostics");
  do d <- update_string d nm (Some (fst pf2));
  (* str = strrchr(folder_path,'/'); assert(str) *)
  match strchr (fst pf) "/"%char with
  | None => Abort
  | Some _ =>
    do root <- get_S d (S_ "relative_root_path") true;
    do nm <- prefix_it prefix (S_ "did_resolution_change?");
    do d <- set_int d nm 1;
    Ok (d, shell_cp (snd pf2) parfile)
  end.

(** the whole function; the returned Z is its int result, the returned [option nat] is the iteration
    handed to update_iterative_parameter_ip (ghost, for the statements) *)
Definition update_iteration_params (d : db) (fs : FS) (main_loop_iter : Z) (prefix : str)
  : outcome (Z * option Z * db * FS) :=
  do td <- total_iterations d;
  let total := fst td in let d := snd td in
  do nm_it <- prefix_it prefix (S_ "iteration");
  do iter_n <- get_uint d nm_it true;
  do nm_res <- prefix_it prefix (S_ "resolution_iteration");
  do res_iter_n <- get_uint d nm_res true;
  do parfile <- get_S d (S_ "parameter_file_name") true;
  do stem <- get_S d (S_ "parameter_file_name_stem") true;
  do df <- ensure_top d fs stem;
  let d := fst df in let fs := snd df in
  let iter := if (main_loop_iter <? iter_n)%Z then iter_n else main_loop_iter in
  do d <- set_int d nm_it (if (main_loop_iter <? iter_n)%Z then (iter + 1)%Z else iter);
  if (total <=? iter)%Z then
    do nm <- prefix_it prefix (S_ "STOP");
    do d <- set_int d nm 1;
    do d <- set_int d nm_it iter;
    Ok (1%Z, None, d, fs)
  else
    do stem <- deref stem;
    do prev <- folder_name d stem;
    do d <- update_iterative strtod d (Z.to_nat iter);
    do nm <- prefix_it prefix (S_ "did_resolution_change?");
    do next <- folder_name d stem;
    do d <- set_int d nm 0;
    do d <- set_int d nm_res (res_iter_n + 1);
    if negb (str_eqb next prev) || (iter =? 0)%Z then
      do parfile <- deref parfile;
      do df <- new_folder d fs prefix next parfile;
      Ok (0%Z, Some iter, fst df, snd df)
    else Ok (0%Z, Some iter, d, fs).
End Iter.
