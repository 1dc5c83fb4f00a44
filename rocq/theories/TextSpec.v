(** TextSpec.v - what the text and parameter-file theorems are stated with; nothing here refers to the model. *)
From Verif Require Import Base.

(** ** Lists with a separator *)
(** the maximal pieces between separators, empty ones included: "a,,b" -> a, "", b *)
Fixpoint pieces (d : ascii) (s : str) : list str :=
  match s with
  | [] => [[]]
  | c :: s' =>
    if ascii_dec c d then [] :: pieces d s'
    else match pieces d s' with
         | p :: l => (c :: p) :: l
         | [] => [[c]]
         end
  end.
Definition nonempty (s : str) : bool := match s with [] => false | _ => true end.
(** the items: the non-empty pieces *)
Definition segments (d : ascii) (s : str) : list str := filter nonempty (pieces d s).

(** a,b,c *)
Fixpoint join_with (d : ascii) (l : list str) : str :=
  match l with
  | [] => []
  | [a] => a
  | a :: l' => a ++ d :: join_with d l'
  end.

(** ** The parameter file as text *)
Definition blank (c : ascii) : bool := ch_eqb c " "%char || ch_eqb c (ascii_of_N 9).
Definition backslash : ascii := ascii_of_N 92.
Definition newline : ascii := ascii_of_N 10.

(** the text with blanks removed, comments removed (the newline that ends them is kept), and backslash-newline
    joined; None if a backslash is not followed by a newline.  [cmt]: inside a comment. *)
Fixpoint clean (s : str) (cmt : bool) : option str :=
  match s with
  | [] => Some []
  | c :: s' =>
    if cmt then
      if ch_eqb c newline then option_map (cons newline) (clean s' false) else clean s' true
    else if blank c then clean s' false
    else if ch_eqb c "#"%char then clean s' true
    else if ch_eqb c backslash then
      match s' with
      | c' :: s'' => if ch_eqb c' newline then clean s'' false else None
      | [] => None
      end
    else option_map (cons c) (clean s' false)
  end.

(** where the file ends: [joined] = the current line continues an earlier one *)
Inductive ending := EPlain | EComment | EJoined | EJoinedComment.
Fixpoint file_end (s : str) (joined cmt : bool) : ending :=
  match s with
  | [] => match joined, cmt with
          | false, false => EPlain | false, true => EComment
          | true, false => EJoined | true, true => EJoinedComment
          end
  | c :: s' =>
    if ch_eqb c newline then file_end s' false false
    else if cmt then file_end s' joined true
    else if ch_eqb c "#"%char then file_end s' joined true
    else if ch_eqb c backslash then match s' with _ :: s'' => file_end s'' true false | [] => EPlain end
    else file_end s' joined false
  end.

(** ** The lines of the cleaned text *)
(** what one line says.  A line is name=value; the value is what follows the first run of '='. *)
Inductive line_says := Nothing | NoValue | Assign (name value : str).
Fixpoint drop_eq (s : str) : str :=
  match s with c :: s' => if ascii_dec c "="%char then drop_eq s' else s | [] => [] end.
Definition assign_or (n v : str) : line_says := match v with [] => NoValue | _ => Assign n v end.
Fixpoint until_eq (s : str) : option (str * str) :=
  match s with
  | [] => None
  | c :: s' => if ascii_dec c "="%char then Some ([], drop_eq s')
               else match until_eq s' with Some (b, r) => Some (c :: b, r) | None => None end
  end.
(** the quirk of the code: one leading '=' is skipped, and then a line without a further '=' defines
    a parameter with its own name as value *)
Definition says (a : str) : line_says :=
  match a with
  | [] => Nothing
  | c :: a' =>
    if ascii_dec c "="%char then
      match until_eq a' with
      | Some (n, v) => assign_or n v
      | None => assign_or a' a'
      end
    else
      match until_eq a with
      | Some (n, v) => assign_or n v
      | None => NoValue
      end
  end.
(** a proper line *)
Definition wf_assign (p : str * str) : Prop :=
  fst p <> [] /\ ~ In "="%char (fst p) /\ ~ In newline (fst p) /\ ~ In (ascii_of_N 0) (fst p) /\
  snd p <> [] /\ hd_error (snd p) <> Some "="%char /\ ~ In newline (snd p) /\ ~ In (ascii_of_N 0) (snd p).
(** a cleaned file: assignments (Some) and blank lines (None) *)
Definition line_text (l : option (str * str)) : str :=
  match l with Some (n, v) => n ++ "="%char :: v ++ [newline] | None => [newline] end.
Definition file_text (ls : list (option (str * str))) : str := List.concat (map line_text ls).
Fixpoint assignments (ls : list (option (str * str))) : list (str * str) :=
  match ls with [] => [] | Some p :: l => p :: assignments l | None :: l => assignments l end.
