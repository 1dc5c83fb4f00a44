(** EqModel.v - which equations are solved: the data base of equations, the solving manager, the region of an equation.
    Models Src/Main/Modules/Maths/Equation_Solvings/solve_manager.c (add_eq, initialize_solving_man, get_field_eq) and the
    text handling of Src/Main/Modules/Physics/Equation/eq_main.c and eq_solve.c.
    SIMPLIFICATIONS: a C function is represented by its name; strings have no NUL; memory failure is left out; every patch
    receives the same manager, so one is modelled. *)
From Verif Require Import Base TextModel GenEqTable.
Open Scope list_scope.

(** sEquation_T, maths_equation_solvings_lib.h:273-277 (name[400]) *)
Record eqn := mkeqn { e_name : str; e_fn : str }.
Definition same_i (a b : str) : bool := strcmp_i (Some a) (Some b).
(** sprintf of a text into an array of n characters *)
Definition sprintf_n (n : nat) (s : str) : outcome str := if Nat.ltb (List.length s) n then Ok s else UB.

(** add_eq, solve_manager.c:26-54 *)
Definition add_eq (db : list eqn) (fn name : str) : outcome (list eqn) :=
  if existsb (fun e => same_i (e_name e) name) db then Abort
  else do n <- sprintf_n 400 name; Ok (db ++ [mkeqn n fn]).
(** get_field_eq, solve_manager.c:203-230; an empty data base is the null pointer *)
Definition get_field_eq (name : str) (db : list eqn) (prefix : str) : outcome str :=
  do n <- sprintf_n 400 (prefix ++ name);
  match find (fun e => same_i (e_name e) n) db with Some e => Ok (e_fn e) | None => Abort end.

(** the four data bases: 0 field equations, 1 boundary conditions, 2 and 3 their Jacobians *)
Definition eq_dbs := nat -> list eqn.
Fixpoint add_eqs (l : list (nat * string * string)) (dbs : eq_dbs) : outcome eq_dbs :=
  match l with
  | [] => Ok dbs
  | (k, fn, name) :: l =>
    do db <- add_eq (dbs k) (S_ fn) (S_ name);
    add_eqs l (fun j => if Nat.eqb j k then db else dbs j)
  end.
(** set_equation_params, eq_main.c:117-334: the data bases of the program *)
Definition set_equation_dbs : outcome eq_dbs := add_eqs add_eq_calls (fun _ => []).

(** one field of Solving_Man_T: field_name, field_aliased, field_eq, bc_eq, jacobian_field_eq, jacobian_bc_eq *)
Record sman := mksman { s_field : str; s_alias : str; s_eq : str; s_bc : str; s_jac : str; s_jacbc : str }.
(** the parameters: names are compared without case (parameters.c), so [get] is asked for the lower case name *)
Definition Pget (get : str -> option str) (n : str) : option str := get (map tolower n).
Definition Pgets_o (get : str -> option str) (n : str) : outcome str := match Pget get n with Some v => Ok v | None => Abort end.

(** initialize_solving_man, solve_manager.c:132-186, for field f.  The buffer alias_fname[100] is zero at the start
    (:71) and written only when there is a prefix. *)
Definition solving_entry (get : str -> option str) (dbs : eq_dbs) (prefix : option str) (f : str) : outcome sman :=
  do ea <- (match prefix with
            | Some p =>
              do pn <- sprintf_n 100 (p ++ f);
              do v <- Pgets_o get pn;
              do v <- sprintf_n 100 v;
              match strchr v ","%char with
              | None => Abort
              | Some (b, _) =>
                do e <- sprintf_n 200 (b ++ "_"%char :: f);
                do an <- sprintf_n 100 (p ++ S_ "alias_field_" ++ f);
                do a <- sprintf_n 100 (match Pget get an with Some a => a | None => f end);
                Ok (e, a)
              end
            | None => do e <- sprintf_n 200 f; Ok (e, [])
            end);
  let '(e, a) := ea in
  do q0 <- get_field_eq e (dbs 0) (S_ "eq_");
  do q1 <- get_field_eq e (dbs 1) (S_ "bc_");
  do q2 <- get_field_eq e (dbs 2) (S_ "jacobian_eq_");
  do q3 <- get_field_eq e (dbs 3) (S_ "jacobian_bc_");
  Ok (mksman f a q0 q1 q2 q3).
Fixpoint omap {A B} (g : A -> outcome B) (l : list A) : outcome (list B) :=
  match l with [] => Ok [] | a :: l => do b <- g a; do r <- omap g l; Ok (b :: r) end.
(** initialize_solving_man, solve_manager.c:56-194; the loop :80-90 is that of read_separated_items_in_string *)
Definition initialize_solving_man (get : str -> option str) (dbs : eq_dbs) (prefix : option str) : outcome (list sman) :=
  do par <- Pgets_o get (S_ "solve_order");
  do fs <- read_separated_items par ","%char;
  omap (solving_entry get dbs prefix) fs.

(** set_equation_grid, eq_solve.c:116-129: the region handed to collect_patches; None = the whole grid.
    [v] is the value of "EQ_<field>", copied to par_val[999]. *)
Definition eq_region (v : str) : outcome (option str) :=
  do v <- sprintf_n 999 v;
  match strchr v ","%char with
  | None => Abort
  | Some (_, r) => let r := tl r in Ok (match strstr r (S_ ".*") with Some _ => None | None => Some r end)
  end.
(** Solve_Equations_T's Sgrid: add_special_grid_solve_equations and get_grid_solve_equations, solve_eqs.c:155-188.
    A grid is any type; the first grid added under the (exact) name is used, the whole grid if there is none. *)
Definition add_special_grid {G} (l : list (str * G)) (g : G) (name : str) : list (str * G) := l ++ [(name, g)].
Fixpoint get_grid {G} (l : list (str * G)) (whole : G) (name : str) : G :=
  match l with [] => whole | (n, g) :: l => if str_eqb n name then g else get_grid l whole name end.
