(** TextToolsSpec.v - what the text tool properties say, independently of the code. *)
From Verif Require Import Base.

(** [Sub a b]: the characters of a occur in b in this order *)
Inductive Sub : str -> str -> Prop :=
| Sub_nil b : Sub [] b
| Sub_take c a b : Sub a b -> Sub (c :: a) (c :: b)
| Sub_skip c a b : Sub a b -> Sub a (c :: b).

(** x1 sep x2 sep ... sep xn *)
Fixpoint join (sep : str) (l : list str) : str :=
  match l with
  | [] => []
  | [a] => a
  | a :: l' => a ++ sep ++ join sep l'
  end.
(** p occurs in s only at the very end: s = a ++ p with no earlier occurrence *)
Definition first_at_end (p a : str) : Prop := forall b r, a ++ p = b ++ p ++ r -> b = a.
Definition occurs (p s : str) : Prop := exists b r, s = b ++ p ++ r.
