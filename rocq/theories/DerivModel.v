(** DerivModel.v - derivatives asked for by the name of the result.
    Models Src/Main/Modules/Maths/Calculus/derivatives.c:22-126 (partial_derivative_regex, partial_derivative).
    SIMPLIFICATIONS: names have no NUL; the fields of one patch, all with different names (add_field, C41); the values of a
    field are of any type [V]; Partial_Derivative along x, y, z is a given function (its own model: SpectralModel.v), as is
    regex_search. *)
From Verif Require Import Base TextModel.
Open Scope list_scope.
(** :71 sprintf into dfield_name[MAX_STR_LEN], derivatives.c:9 *)
Definition MAX_STR_LEN : nat := 100.
Definition axis_of (c : ascii) : option nat :=
  if ch_eqb c "0"%char then Some 0 else if ch_eqb c "1"%char then Some 1 else if ch_eqb c "2"%char then Some 2 else None.
(** :66-106: the field and the direction named by the name of the derivative; the asserts stop the program *)
Definition parse (n : str) : outcome (str * nat) :=
  let l := List.length n in
  if negb (Nat.ltb l MAX_STR_LEN) then UB else
  if negb (Nat.ltb 3 l) then Abort else
  match axis_of (nth (l - 1) n NUL) with
  | None => Abort
  | Some i =>
    let stem := if ch_eqb (nth (l - 3) n NUL) "_"%char then firstn (l - 3) n else firstn (l - 2) n in
    match stem with
    | c :: r =>
      if ch_eqb c "_"%char then
        match r with d :: r => if ch_eqb d "d"%char then Ok ("_"%char :: r, i) else Abort | [] => Abort end
      else if ch_eqb c "d"%char then Ok (r, i) else Abort
    | [] => Abort
    end
  end.
Section Values.
Variable V : Type.
Variable D : nat -> V -> V.                      (* Partial_Derivative(field, "x" | "y" | "z") *)
Variable search : str -> str -> bool.            (* regex_search(regex, name) *)
(** the values of the patch's fields; None: no values *)
Definition vals := str -> option V.
Definition setv (st : vals) (n : str) (v : option V) : vals := fun m => if str_eqb n m then v else st m.
(** :58-126 of the field named [n] in a patch with the fields [names] *)
Definition partial_derivative (names : list str) (n : str) (st : vals) : outcome vals :=
  do p <- parse n;
  let '(f, i) := p in
  if existsb (str_eqb f) names then
    match st f with None => Abort | Some v => Ok (setv st n (Some (D i v))) end
  else Abort.                                    (* Ind *)
Fixpoint each (names : list str) (l : list str) (st : vals) : outcome vals :=
  match l with [] => Ok st | n :: l => do st <- partial_derivative names n st; each names l st end.
(** :22-45 *)
Fixpoint regexes (names : list str) (l : list str) (st : vals) : outcome vals :=
  match l with
  | [] => Ok st
  | r :: l => if existsb (ch_eqb " "%char) r then Abort
              else do st <- each names (filter (search r) names) st; regexes names l st
  end.
Definition partial_derivative_regex (names : list str) (par : str) (st : vals) : outcome vals :=
  do l <- read_separated_items par ","%char; regexes names l st.
End Values.
