(** EqRelax.v - the outer loop of the elliptic solve and its relaxed update.
    Models Src/Main/Modules/Physics/Equation/eq_solve.c (eq_solve_elliptic_equation, backup_fields,
    update_fields_relaxed_scheme) and get_relaxation_factor_solve_equations in Maths/Equation_Solvings/solve_eqs.c.
    SIMPLIFICATIONS: a double is an exact real; the fields "EQ_backup_<f>" are a second family of fields, so no solved field
    has such a name; the user functions eq_field_update, eq_source_update, eq_analyze_solution and the residual diagnostics
    (null or diagnostic) are left out; solve_eqs is an arbitrary function on the fields of all patches. *)
From Verif Require Import RealBase.
From Verif Require Base EqModel.
Import Base(outcome, Ok, Abort, UB, obind, str, str_eqb).
From Coq Require Import List.
Import ListNotations.
Open Scope R_scope.
(** a field of a patch: not in the patch, without values (v = 0), with values *)
Inductive fld := Absent | Novals | Val (v : nat -> R).
Definition fields := str -> fld.
Record patch := mkpatch { cur : fields; bck : fields }.
Definition fset (m : fields) (f : str) (x : fld) : fields := fun g => if str_eqb f g then x else m g.
(** eq_solve.c:224-246 backup_fields, one field of one patch *)
Definition backup1 (f : str) (p : patch) : outcome patch :=
  match cur p f with
  | Absent => Ok p
  | x => match bck p f with
         | Absent => Abort                                  (* Ind(field_backup) *)
         | _ => match x with Val v => Ok (mkpatch (cur p) (fset (bck p) f (Val v))) | _ => Ok p end
         end
  end.
(** eq_solve.c:269-313 update_fields_relaxed_scheme, one field of one patch; [w] is EQ_update_weight_<f> *)
Definition relax1 (w : R) (f : str) (p : patch) : outcome patch :=
  if EQL w 1 then Ok p else
  match cur p f with
  | Absent => Ok p
  | x => match bck p f with
         | Absent => Abort                                  (* Ind(field_old) *)
         | b => match x with
                | Val v => match b with
                           | Val o => Ok (mkpatch (fset (cur p) f (Val (fun i => w * v i + (1 - w) * o i))) (bck p))
                           | _ => UB                        (* f_old->v is null *)
                           end
                | _ => Ok p
                end
         end
  end.
Fixpoint fold_o {A S} (g : A -> S -> outcome S) (l : list A) (s : S) : outcome S :=
  match l with [] => Ok s | a :: l => obind (g a s) (fold_o g l) end.
(** the loops over the fields of "solve_Order" and over the patches *)
Definition backup (names : list str) (g : list patch) : outcome (list patch) :=
  fold_o (fun f g => EqModel.omap (backup1 f) g) names g.
Definition relax (W : str -> R) (names : list str) (g : list patch) : outcome (list patch) :=
  fold_o (fun f g => EqModel.omap (relax1 (W f) f) g) names g.
(** solve_eqs: new fields from the old ones, per patch; the backups are not touched *)
Definition solved (solve : list fields -> list fields) (g : list patch) : list patch :=
  map (fun q => mkpatch (fst q) (bck (snd q))) (combine (solve (map cur g)) g).
(** eq_solve.c:43-80: [iter] rounds are left of max_iter *)
Fixpoint eq_rounds (max_iter iter : nat) (W : str -> R) (names : list str) (solve : list fields -> list fields) (g : list patch)
  : outcome (list patch) :=
  match iter with
  | O => Ok g
  | S n => obind (relax W names (solved solve g)) (fun g =>
           obind (if Nat.ltb 1 max_iter then backup names g else Ok g) (eq_rounds max_iter n W names solve))
  end.
(** eq_solve.c:40-81 *)
Definition eq_solve (max_iter : nat) (W : str -> R) (names : list str) (solve : list fields -> list fields) (g : list patch) : outcome (list patch) :=
  obind (backup names g) (eq_rounds max_iter max_iter W names solve).

(** solve_eqs.c:100-118 get_relaxation_factor_solve_equations: the weight of a Newton update.  [all] and [one] are the
    values of solve_Newton_Update_Weight and solve_Newton_Update_Weight_<field>; None = no such parameter (PgetdEZ
    returns DBL_MAX then). *)
Definition newton_weight (all one : option R) : R :=
  let factor := match all with Some w => w | None => 1 end in
  match one with Some w => w | None => factor end.

(** ** Specification: the update on the fields alone, without any backup *)
Definition relaxed (W : str -> R) (names : list str) (old new : fields) (f : str) : fld :=
  if in_dec (list_eq_dec Ascii.ascii_dec) f names then
    if EQL (W f) 1 then new f else
    match new f, old f with Val v, Val o => Val (fun i => W f * v i + (1 - W f) * o i) | x, _ => x end
  else new f.
(** one round on all patches *)
Definition round (W : str -> R) (names : list str) (solve : list fields -> list fields) (g : list fields) : list fields :=
  map (fun q => relaxed W names (fst q) (snd q)) (combine g (solve g)).
(** fields that agree (as functions of the name) *)
Definition same_fields (a b : fields) : Prop := forall f, a f = b f.
(** the solver keeps the number of patches and which fields exist and have values *)
Definition shape (x : fld) : nat := match x with Absent => 0 | Novals => 1 | Val _ => 2 end%nat.
Definition keeps (solve : list fields -> list fields) : Prop :=
  forall g, Forall2 (fun a b => forall f, shape (a f) = shape (b f)) g (solve g).
(** the solver looks at the fields only through their names *)
Definition proper (solve : list fields -> list fields) : Prop :=
  forall g h, Forall2 same_fields g h -> Forall2 same_fields (solve g) (solve h).
(** every field to be solved that is in the patch has its backup field *)
Definition has_backups (names : list str) (p : patch) : Prop := forall f, In f names -> cur p f <> Absent -> bck p f <> Absent.
