(** Props_Folder.v - property theorems C23 (output folders) and C43 (names taken from the parameter file's path). *)
From Verif Require Import Base FolderModel FolderProofs.

Definition ex_fs : list str := [S_ "out"; S_ "out/Diag_00"; S_ "out/Diag_01"; S_ "out/Diag_03"; S_ "out/Chk_00"].
(** C23. make_directory gives a folder that did not exist, the first free index; over every history of make_folder and
    open_folder calls the returned folders are pairwise different and new, and nothing is removed. *)
Theorem C23_folders_fresh_partial :
  (forall can fs path name,
     (forall j, j <= List.length fs -> List.length (folder_path 2 path name j) < MAX_ARR) ->
     exists i, make_directory can fs path name =
         Ok (folder_path 2 path name i, if can (folder_path 2 path name i) then folder_path 2 path name i :: fs else fs) /\
       ~ In (folder_path 2 path name i) fs /\ (forall j, j < i -> In (folder_path 2 path name j) fs)) /\
  (forall can top h fs ds fs', (forall x, In x fs -> ~ ends_0000 x) -> (forall d, can d = true) ->
     d_run can top fs h = Ok (ds, fs') ->
     NoDup ds /\ (forall d, In d ds -> ~ In d fs) /\ (forall x, In x fs' <-> In x fs \/ In x ds)).
Proof. exact (conj make_directory_fresh run_fresh). Qed.
Print Assumptions C23_folders_fresh_partial.
Example C23_ex : exists fs', make_directory (fun _ => true) ex_fs (S_ "out") (S_ "Diag") = Ok (S_ "out/Diag_02", fs').
Proof. eexists. vm_compute. reflexivity. Qed.

(** C23, the other half is false: open_folder of a folder made by make_folder does not open it but makes another one. *)
Theorem C23_open_reopens_refuted : forall can top name fs d fs', (forall x, In x fs -> ~ ends_0000 x) ->
  make_directory can fs top name = Ok (d, fs') ->
  forall d2 fs2, open_folder can fs' top name = Ok (d2, fs2) -> (forall x, In x fs' -> x <> d2) /\ make_directory can fs' top name = Ok (d2, fs2).
Proof. exact open_never_reopens. Qed.
Print Assumptions C23_open_reopens_refuted.
Example C23_ex2 : exists fs2, open_folder (fun _ => true) ex_fs (S_ "out") (S_ "Chk") = Ok (S_ "out/Chk_01", fs2).
Proof. eexists. vm_compute. reflexivity. Qed.

(** C23, what open_folder does when folders name_0000, name_0001, ..., name_k (four digits) exist and the next one does not:
    it returns the last of them and makes nothing. *)
Theorem C23_open_last : forall can fs top name k,
  (forall j, j <= List.length fs -> List.length (folder_path 4 top name j) < MAX_ARR) ->
  (forall j, j <= k -> In (folder_path 4 top name j) fs) -> ~ In (folder_path 4 top name (S k)) fs ->
  open_folder can fs top name = Ok (folder_path 4 top name k, fs).
Proof. exact open_last. Qed.
Print Assumptions C23_open_last.
Example C23_ex3 : open_folder (fun _ => true) [S_ "o/D_0001"; S_ "o/D_0000"; S_ "o/D_0003"] (S_ "o") (S_ "D") =
  Ok (S_ "o/D_0001", [S_ "o/D_0001"; S_ "o/D_0000"; S_ "o/D_0003"]).
Proof. vm_compute. reflexivity. Qed.

(** C43. For a parameter file dir/stem.ext (or stem.ext) the recorded file name, stem and root path are stem.ext, stem and dir
    (or "."); a path without a dot is refused. *)
Theorem C43_names_from_path_partial :
  (forall dir stem ext, ~ In "/"%char stem -> ~ In "/"%char ext -> ~ In "."%char ext ->
     List.length (dir ++ S_ "/" ++ stem ++ S_ "." ++ ext) < MAX_ARR ->
     find_inputfile_name (dir ++ S_ "/" ++ stem ++ S_ "." ++ ext) = Ok (stem ++ S_ "." ++ ext, stem) /\
     find_relative_root_path (dir ++ S_ "/" ++ stem ++ S_ "." ++ ext) = Ok dir) /\
  (forall stem ext, ~ In "/"%char stem -> ~ In "/"%char ext -> ~ In "."%char ext ->
     List.length (stem ++ S_ "." ++ ext) < MAX_ARR ->
     find_inputfile_name (stem ++ S_ "." ++ ext) = Ok (stem ++ S_ "." ++ ext, stem) /\
     find_relative_root_path (stem ++ S_ "." ++ ext) = Ok (S_ ".")) /\
  (forall path, ~ In "."%char path -> find_inputfile_name path = Abort).
Proof. exact (conj file_name_in_dir (conj file_name_here no_extension)). Qed.
Print Assumptions C43_names_from_path_partial.
Example C43_ex : find_inputfile_name (S_ "runs/v1.0/bhns.q2.par") = Ok (S_ "bhns.q2.par", S_ "bhns.q2") /\
  find_relative_root_path (S_ "runs/v1.0/bhns.q2.par") = Ok (S_ "runs/v1.0").
Proof. split; vm_compute; reflexivity. Qed.

(** C43, the missing case: a dot in the directory part only. The copy loop runs past the ends of both strings. *)
Theorem C43_dot_in_directory_refuted : forall d1 d2 name, ~ In "."%char d2 -> ~ In "."%char name -> ~ In "/"%char name ->
  find_inputfile_name (d1 ++ S_ "." ++ d2 ++ S_ "/" ++ name) = UB.
Proof. exact dot_in_directory_only. Qed.
Print Assumptions C43_dot_in_directory_refuted.
Example C43_ex2 : find_inputfile_name (S_ "./input") = UB.
Proof. vm_compute; reflexivity. Qed.
