(** FolderModel.v - output folders and the names taken from the parameter file's path.
    Sources: Src/Main/Modules/Text_and_File_Tools/file_and_directory.c (make_directory, make_folder, open_folder),
    Src/Main/Core/global_variables.c (find_inputfile_name, find_relative_root_path).
    Simplifications: the file system is the list of the paths for which stat succeeds; `mkdir dir` in a shell creates that one
    path or nothing (so: no blanks or shell characters in the path); whether it succeeds is an arbitrary function [can],
    because shell_command (Modules/Utilities/useful_functions.c:540-549) does not look at the exit status. *)
From Verif Require Import Base.

(** "%0wd" of a number that is not negative *)
Definition pad (w : nat) (n : N) : str := repeat "0"%char (w - List.length (dec_N n)) ++ dec_N n.
(** "%s/%s_%02d" (FOLDER_AFFIX, Modules/Includes/macros_lib.h:23) for w = 2, "%s/%s_%04d" for w = 4 *)
Definition folder_path (w : nat) (path name : str) (i : nat) : str := path ++ S_ "/" ++ name ++ S_ "_" ++ pad w (N.of_nat i).
Definition mem (x : str) (l : list str) : bool := existsb (str_eqb x) l.

(** the loop of file_and_directory.c:21-25 (and 59-64): the first i whose path does not exist. char dir[400] *)
Definition MAX_ARR : nat := 400.
Fixpoint probe (w : nat) (fs : list str) (path name : str) (fuel i : nat) : outcome nat :=
  match fuel with
  | O => UB                                          (* proved unreachable *)
  | S k => let dir := folder_path w path name i in
           if Nat.leb MAX_ARR (List.length dir) then UB
           else if mem dir fs then probe w fs path name k (S i) else Ok i
  end.
Section Can.
Variable can : str -> bool.
(** make_directory, :12-33 *)
Definition make_directory (fs : list str) (path name : str) : outcome (str * list str) :=
  do i <- probe 2 fs path name (S (List.length fs)) 0;
  let dir := folder_path 2 path name i in
  Ok (dir, if can dir then dir :: fs else fs).
(** open_folder, :51-80, make_folder, :39-47; [top] is the parameter top_directory *)
Definition open_folder (fs : list str) (top name : str) : outcome (str * list str) :=
  do i <- probe 4 fs top name (S (List.length fs)) 0;
  match i with
  | O => make_directory fs top name
  | S k => Ok (folder_path 4 top name k, fs)
  end.
(** a history of calls *)
Inductive dop := Make (name : str) | Open (name : str).
Definition d_step (top : str) (fs : list str) (o : dop) : outcome (str * list str) :=
  match o with Make n => make_directory fs top n | Open n => open_folder fs top n end.
Fixpoint d_run (top : str) (fs : list str) (h : list dop) : outcome (list str * list str) :=
  match h with
  | [] => Ok ([], fs)
  | o :: h' => do r <- d_step top fs o; do q <- d_run top (snd r) h'; Ok (fst r :: fst q, snd q)
  end.
End Can.

(** strrchr: the text before the last c and the text after it *)
Fixpoint strrchr (s : str) (c : ascii) : option (str * str) :=
  match s with
  | [] => None
  | d :: s' => match strrchr s' c with
               | Some (a, b) => Some (d :: a, b)
               | None => if ascii_dec d c then Some ([], s') else None
               end
  end.
(** find_inputfile_name, global_variables.c:22-53: the parameters parameter_file_name and parameter_file_name_stem.
    The last '.' of the whole path ends the copy into name[400]; when it lies before the last '/', the copy never meets it
    and runs over the end of both arrays. *)
Definition find_inputfile_name (path : str) : outcome (str * str) :=
  match strrchr path "."%char with
  | None => Abort
  | Some (before, _) =>
    let p := match strrchr path "/"%char with Some (d, _) => S (List.length d) | None => 0 end in
    let last := List.length before in
    if Nat.ltb last p then UB
    else if Nat.leb MAX_ARR (last - p) then UB
    else Ok (skipn p path, firstn (last - p) (skipn p path))
  end.
(** find_relative_root_path, global_variables.c:57-71 *)
Definition find_relative_root_path (path : str) : outcome str :=
  if Nat.leb MAX_ARR (List.length path) then UB
  else Ok (match strrchr path "/"%char with Some (d, _) => d | None => S_ "." end).
