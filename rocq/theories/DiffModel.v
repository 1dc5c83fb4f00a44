(** DiffModel.v - the two reports on the difference of two fields: Src/Main/Modules/Maths/Field_Analysis/convergence_tests.c
    and pr_field_difference (Src/Main/Modules/Prints/pr_for_tests.c:472-510).
    A double is an exact real, so the decimal places printed are not modelled; headers and banners are left out.  A report
    that stops or crashes half-way has no result here. *)
From Verif Require Import RealBase NormModel.
From Verif Require Import Base TextModel.
Open Scope R_scope.
Open Scope list_scope.

(** a patch: name, number of nodes, and its fields: absent, without values (null pointer), or the values *)
Record dpatch := mkD { d_name : str; d_nn : nat; d_fld : str -> option (option (nat -> R)) }.
(** patch->fields[Ind(f)]->v: Includes/macros_lib.h:36, an unknown field stops the program *)
Definition look (p : dpatch) (f : str) : outcome (option (nat -> R)) := match d_fld p f with None => Abort | Some v => Ok v end.

(** a line of the convergence test: patch, nn, Linf, L2, L1 *)
Definition tline := (str * nat * R * option R * option R)%type.
(** convergence_tests.c:13-54 analytic_numeric_convergence_test *)
Definition test_patch (an nu : str) (p : dpatch) : outcome tline :=
  do a <- look p an; do b <- look p nu;
  match a, b with
  | Some a, Some b =>
      do Linf <- L_inf (d_nn p) (Some (fun i => a i - b i));
      Ok (d_name p, d_nn p, Linf, L2_norm (d_nn p) (Some a) (Some b), L1_norm (d_nn p) (Some a) (Some b))
  | _, _ => if Nat.eqb (d_nn p) 0 then Abort else UB
  end.
Fixpoint test (an nu : str) (grid : list dpatch) : outcome (list tline) :=
  match grid with
  | [] => Ok []
  | p :: t => do l <- test_patch an nu p; do r <- test an nu t; Ok (l :: r)
  end.

(** a line of pr_field_difference: number, second field, first field, magnitude of the difference *)
Definition dline := (nat * R * R * R)%type.
(** pr_for_tests.c:486-506, the loop over the patches: the lines of the grid's file and the patches' files in order *)
Fixpoint differences (f1 f2 : str) (R : nat) (grid : list dpatch) : outcome (list dline * list (str * list dline)) :=
  match grid with
  | [] => Ok ([], [])
  | p :: t =>
      do a <- look p f1; do b <- look p f2;
      match a, b, Nat.eqb (d_nn p) 0 with
      | Some a, Some b, _ =>
          let line k l := (k, b l, a l, Rabs (b l - a l)) in
          do r <- differences f1 f2 (R + d_nn p) t;
          Ok (List.map (fun l => line (l + R)%nat l) (seq 0 (d_nn p)) ++ fst r,
              (d_name p, List.map (fun l => line l l) (seq 0 (d_nn p))) :: snd r)
      | _, _, true =>
          do r <- differences f1 f2 (R + d_nn p) t; Ok (fst r, (d_name p, []) :: snd r)
      | _, _, false => UB
      end
  end.
Definition pr_field_difference (grid : list dpatch) (f1 f2 : str) := differences f1 f2 0 grid.
