(** IdrModel.v - the initial data reader, Src/Projects/Initial_Data_Reader/idr_main.c and idr_read_write.c (line numbers of the named file),
    and parameter_query_from_checkpoint (checkpoint.c:429-511).
    Parameters of the model: the grid (the field names of each patch, the search for the patch and the coordinates X of a point, the value of
    field number k of patch p interpolated at X), the addition of doubles, isfinite and strtod.  Not modelled: memory failure, freeing, printing,
    OpenMP (the sequential meaning of the loops). *)
From Verif Require Import Base ParamModel TextModel CheckpointModel.

(** idr_main.c:11-31 *)
Definition Field_Dictionary : list str := map S_ [
  "alpha"; "betax"; "betay"; "betaz"; "adm_gxx"; "adm_gxy"; "adm_gxz"; "adm_gyy"; "adm_gyz"; "adm_gzz";
  "adm_Kxx"; "adm_Kxy"; "adm_Kxz"; "adm_Kyy"; "adm_Kyz"; "adm_Kzz"; "grhd_rho"; "grhd_p"; "grhd_epsl"; "grhd_vx"; "grhd_vy"; "grhd_vz"]%string.
(** idr_main.c:278-300; a null name is given to strcmp *)
Fixpoint index_from (i : nat) (n : str) (l : list str) : option nat :=
  match l with [] => None | a :: l' => if str_eqb n a then Some i else index_from (S i) n l' end.
Definition find_field_index (n : option str) : outcome nat :=
  match n with None => UB | Some n => match index_from 0 n Field_Dictionary with Some i => Ok i | None => Abort end end.

(** idr_main.c:216-238 set_param_from_evo on the two arrays; dup_s(NULL) is NULL *)
Definition set_param (ps : list (option str * option str)) (l r : option str) : outcome (list (option str * option str)) :=
  match l, r with None, None => Abort | _, _ => Ok (ps ++ [(l, r)]) end.

(** idr_main.c:303-357, with the sanity check of idr_main.h:5-13.  The exporters themselves are not in the repository. *)
Inductive exporter := BHNS_generic | BHNS_MT | NSNS_generic | BHBH_generic | SNS_generic.
Record request := mkReq { q_system : option str; q_option : option str; q_ifields : option str; q_x : bool; q_y : bool; q_z : bool; q_npoints : Z }.
Definition sanity (q : request) (e : exporter) : outcome exporter :=
  match q_ifields q with None => Abort | Some _ => if (negb (q_x q) || negb (q_y q) || negb (q_z q) || (q_npoints q =? 0)%Z)%bool then Abort else Ok e end.
Definition interpolate_dispatch (q : request) : outcome exporter :=
  let sys (s : string) := strcmp_i (q_system q) (Some (S_ s)) in let opt (s : string) := strcmp_i (q_option q) (Some (S_ s)) in
  if (sys "BH_NS_binary_initial_data"%string && opt "generic"%string)%bool then sanity q BHNS_generic
  else if (sys "BH_NS_binary_initial_data"%string && opt "generic_MT_safe"%string)%bool then Ok BHNS_MT
  else if (sys "NS_NS_binary_initial_data"%string && opt "generic"%string)%bool then sanity q NSNS_generic
  else if (sys "BH_BH_binary_initial_data"%string && opt "generic"%string)%bool then sanity q BHBH_generic
  else if (sys "Single_NS_initial_data"%string && opt "generic"%string)%bool then sanity q SNS_generic
  else Abort.

(** *** checkpoint.c:429-511 *)
(** :447-462; out of fuel: the loop runs for ever (UB here, excluded by the theorems) *)
Fixpoint q_hdr_loop (fuel : nat) (f : bytes) (line : str) (npar : Z) : outcome (Z * bytes) :=
  match fuel with
  | O => UB
  | S k =>
    if str_eqb line ALLOC_FOOTER then Ok (npar, f)
    else
      let (line, f) := scan_word f line in
      if str_eqb line ALLOC_FOOTER then Ok (npar, f)
      else match strstr line (S_ "=") with
           | None => Abort
           | Some (_, v0) =>
             if contains_b line (S_ "number_of_parameters") then do n <- atoi (tl v0); q_hdr_loop k f line (to_uint n)
             else q_hdr_loop k f line npar
           end
  end.
(** :473-496 and :498-506 *)
Fixpoint q_params (k : nat) (n : str) (f : bytes) : outcome (option cpar) :=
  match k with
  | O => do _ <- r_title PARAM_FOOTER f; Ok None
  | S k' => do r <- r_param f; if strcmp_i (Some (lv (fst (fst r)))) (Some n) then Ok (Some (fst r)) else q_params k' n (snd r)
  end.
Definition parameter_query (n : str) (f : bytes) : outcome (option cpar) :=
  let (line, f1) := scan_word f [] in
  if str_eqb line ALLOC_HEADER then
    do r <- q_hdr_loop 5 f1 line 0%Z;
    do f2 <- r_title PARAM_HEADER (tl (snd r));
    q_params (Z.to_nat (fst r)) n f2
  else Abort.
(** idr_main.c:190-200 (elliptica_id_reader_init): the system is the value of the parameter Project *)
Definition read_system (f : bytes) : outcome (option str) :=
  do p <- parameter_query (S_ "Project") f; match p with None => Abort | Some q => Ok (rv (fst q)) end.

Section Reader.
Variable strtod : str -> dbl.
(** idr_main.c:243-271; a null name gives DBL_MAX; strtod(NULL) is undefined *)
Definition get_param_dbl (n : option str) (f : bytes) : outcome dbl :=
  match n with
  | None => Ok DBL_MAX
  | Some n => do p <- parameter_query n f; match p with None => Abort | Some q => match rv (fst q) with Some v => Ok (strtod v) | None => UB end end
  end.
Variable dadd : dbl -> dbl -> dbl.
Variable isfinite : dbl -> bool.
Variable X : Type.
Definition point : Type := dbl * dbl * dbl.
Record grid := mkGrid { g_patches : list (list str); g_locate : point -> option (nat * X); g_interp : nat -> nat -> X -> dbl }.
Variable g : grid.

(** Ind(name) in patch number p *)
Definition Ind_in (p : nat) (n : str) : outcome nat :=
  match nth_error (g_patches g) p with None => UB | Some l => match index_from 0 n l with Some i => Ok i | None => Abort end end.
(** idr_read_write.c:540-596 idr_find_XYZ_from_xyz; the points are the entries of the three coordinate arrays *)
Definition shifted (CM x : point) : point := (dadd (fst (fst x)) (fst (fst CM)), dadd (snd (fst x)) (snd (fst CM)), dadd (snd x) (snd CM)).
Fixpoint find_XYZ (CM : point) (xs : list point) : outcome (list (nat * X)) :=
  match xs with
  | [] => Ok []
  | x :: r => match g_locate g (shifted CM x) with None => Abort | Some w => do l <- find_XYZ CM r; Ok (w :: l) end
  end.
(** the points come with the number of points as an int: (Uint)idr->npoints, :556; more points than the arrays hold are read outside them *)
Definition find_XYZ_n (npoints : Z) (CM : point) (xs : list point) : outcome (list (nat * X)) :=
  let n := Z.to_nat (to_uint npoints) in if Nat.ltb (List.length xs) n then UB else find_XYZ CM (firstn n xs).
(** :243-288 of idr_interpolate_fields_and_save_in_array (and :126-171 of the file writer): make_coeffs_3d of every field, the indices; Ind stops
    the program for a missing field *)
Fixpoint all_names (p : nat) (ns : list str) : outcome unit := match ns with [] => Ok tt | n :: r => do _ <- Ind_in p n; all_names p r end.
Fixpoint all_patches (k : nat) (ns : list str) : outcome unit := match k with O => Ok tt | S j => do _ <- all_patches j ns; all_names j ns end.
Fixpoint values (n : str) (ws : list (nat * X)) : outcome (list dbl) :=
  match ws with
  | [] => Ok []
  | w :: r => do i <- Ind_in (fst w) n; do l <- values n r; Ok (g_interp g (fst w) i (snd w) :: l)
  end.
(** the array of arrays idr->field *)
Definition arrays : Type := nat -> option (list dbl).
Definition set_array (a : arrays) (i : nat) (v : list dbl) : arrays := fun j => if Nat.eqb j i then Some v else a j.
(** :290-340; evo_fields may be shorter than fields_name: its last pointer is null, and beyond it nothing is known *)
Fixpoint save_loop (f : nat) (ns evo : list str) (ws : list (nat * X)) (a : arrays) : outcome arrays :=
  match ns with
  | [] => Ok a
  | n :: r =>
    if Nat.ltb (List.length evo) f then UB else
    do i <- find_field_index (nth_error evo f);
    do v <- values n ws;
    if forallb isfinite v then save_loop (S f) r evo ws (set_array a i v) else Abort
  end.
(** :219-347; an empty list of names is a null pointer *)
Definition save_in_array (a : arrays) (ws : list (nat * X)) (fields evo : str) : outcome arrays :=
  do ns <- read_separated_items fields ","%char;
  do es <- read_separated_items evo ","%char;
  match ns, es with
  | [], _ | _, [] => Abort
  | _, _ => do _ <- all_patches (List.length (g_patches g)) ns; save_loop 0 ns es ws a
  end.
(** :384-409 idr_interpolate_field_thread_safe; id_field_names ends with a null pointer, the list of the model is what comes before it *)
Definition fieldx (names : list str) (CM : point) (n : option str) (x : point) : outcome dbl :=
  match g_locate g (shifted CM x) with
  | None => Abort
  | Some w => do i <- find_field_index n; match nth_error names i with None => UB | Some fn => do k <- Ind_in (fst w) fn; Ok (g_interp g (fst w) k (snd w)) end
  end.

(** *** the files.  idr_read_write.h:9-11 *)
Definition HEADER := S_ "#{data#".
Definition FOOTER := S_ "#}data#".
Definition END_TXT := NL :: S_ "#file_completed#" ++ [NL].
(** :439-457 idr_new_binary_file_to_write *)
Definition file_head (names : str) : bytes := S_ "# this file contains values of " ++ names ++ [NL] ++ wP_str (Some HEADER).
(** :460-471 idr_close_file *)
Definition file_tail : bytes := wP_str (Some FOOTER) ++ wP_str (Some END_TXT).
(** :173-212 of idr_interpolate_fields_and_write_to_file: FWriteP_bin of a null name writes the count 0 *)
Fixpoint write_loop (f : nat) (ns evo : list str) (ws : list (nat * X)) : outcome bytes :=
  match ns with
  | [] => Ok []
  | n :: r =>
    if Nat.ltb (List.length evo) f then UB else
    do v <- values n ws;
    if forallb isfinite v then do b <- write_loop (S f) r evo ws; Ok (wP_str (nth_error evo f) ++ List.concat (map wV_dbl v) ++ b) else Abort
  end.
(** :107-218 *)
Definition write_fields_file (ws : list (nat * X)) (fields evo : str) : outcome bytes :=
  do ns <- read_separated_items fields ","%char;
  do es <- read_separated_items evo ","%char;
  match ns, es with
  | [], _ | _, [] => Abort
  | _, _ => do _ <- all_patches (List.length (g_patches g)) ns; do b <- write_loop 0 ns es ws; Ok b
  end.
(** fgets(str,999,file): up to 998 characters, up to and including the first newline *)
Fixpoint fgets_rest (n : nat) (f : bytes) : bytes :=
  match n with O => f | S k => match f with [] => [] | c :: r => if ascii_dec c NL then r else fgets_rest k r end end.
(** :58-71 *)
Fixpoint r_coords (k : nat) (f : bytes) : outcome (list point * bytes) :=
  match k with
  | O => Ok ([], f)
  | S j =>
    do x <- rV f sizeof_double; if negb (isfinite (fst x)) then Abort else
    do y <- rV (snd x) sizeof_double; if negb (isfinite (fst y)) then Abort else
    do z <- rV (snd y) sizeof_double; if negb (isfinite (fst z)) then Abort else
    do r <- r_coords j (snd z); Ok ((fst x, fst y, fst z) :: fst r, snd r)
  end.
(** :84-106 *)
Fixpoint locate_all (xs : list point) : outcome (list (nat * X)) :=
  match xs with [] => Ok [] | x :: r => match g_locate g x with None => Abort | Some w => do l <- locate_all r; Ok (w :: l) end end.
(** :14-109 idr_load_Cartesian_coordinates_from_file *)
Definition load_coordinates (f : bytes) : outcome (list point * list (nat * X)) :=
  do f1 <- r_title HEADER (fgets_rest 998 f);
  do n <- rV f1 sizeof_uint;
  do r <- r_coords (N.to_nat (fst n)) (snd n);
  do _ <- r_title FOOTER (snd r);
  do ws <- locate_all (fst r); Ok (fst r, ws).
End Reader.
