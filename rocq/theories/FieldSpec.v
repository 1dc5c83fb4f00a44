(** FieldSpec.v - what the properties about fields mean. *)
From Coq Require Import Permutation.
From Verif Require Import Base FieldModel.

Section Spec.
Variable V : Type.
Variable zeros : V.
Notation field := (field V).

(** the pool of fields of a patch as a map from names *)
Definition pool := str -> option field.
Definition p_put (m : pool) (n : str) (f : field) : pool := fun k => if str_eqb k n then Some f else m k.
Definition p_del (m : pool) (n : str) : pool := fun k => if str_eqb k n then None else m k.

(** calls on a patch *)
Inductive fop :=
| FAdd (n : str) (attribute : option str) (alloc : bool)     (* add_field *)
| FRemove (n : str)                                          (* remove_field(patch->fields[Ind(n)]) *)
| FRegex (m : str -> bool)                                   (* remove_field_regex *)
| FSet (n : str) (x : option V).                             (* patch->fields[Ind(n)]->v = x *)
Definition parenthesised (a : str) : bool := existsb (ch_eqb "("%char) a && existsb (ch_eqb ")"%char) a.
Definition p_step (m : pool) (o : fop) : outcome pool :=
  match o with
  | FAdd n a alloc =>
    let a := match a with Some a => a | None => S_ "(3dim)" end in
    match m n with
    | Some _ => Abort
    | None => if parenthesised a
              then Ok (p_put m n (mkField V n (if alloc then Some zeros else None) None None (Some a)))
              else Abort
    end
  | FRemove n => match m n with Some _ => Ok (p_del m n) | None => Abort end
  | FRegex r => Ok (fun k => if r k then None else m k)
  | FSet n x => match m n with
                | Some f => Ok (p_put m n (mkField V n x (fv2 V f) (finfo V f) (fattr V f)))
                | None => Abort
                end
  end.
Fixpoint p_run (m : pool) (h : list fop) : outcome pool :=
  match h with [] => Ok m | o :: h' => do m' <- p_step m o; p_run m' h' end.

(** the model's step for the same calls *)
Definition set_v (x : option V) (f : field) : field := mkField V (fname V f) x (fv2 V f) (finfo V f) (fattr V f).
Definition f_step (l : list field) (o : fop) : outcome (list field) :=
  match o with
  | FAdd n a alloc => add_field V zeros n a alloc l
  | FRemove n => remove_named V n l
  | FRegex r => remove_field_regex V r l
  | FSet n x => do i <- Ind V n l;
                match nth_error l (Z.to_nat i) with
                | Some f => Ok (set_nth V (Z.to_nat i) (set_v x f) l)
                | None => UB
                end
  end.
Fixpoint f_run (l : list field) (h : list fop) : outcome (list field) :=
  match h with [] => Ok l | o :: h' => do l' <- f_step l o; f_run l' h' end.

(** transforming in some directions, one after the other *)
Variable T : nat -> option (V -> V).
Fixpoint transforms (ds : list nat) (x : V) : option V :=
  match ds with
  | [] => Some x
  | d :: ds' => match T d with Some t => transforms ds' (t x) | None => None end
  end.

(** what a coefficient request has to answer when the values are [x]; the 2-d request may transform in either order *)
Definition answer (o : cop V) (x w : V) : Prop :=
  match o with
  | C1 _ d => transforms [d] x = Some w
  | C2 _ d1 d2 => transforms [d1; d2] x = Some w \/ transforms [d2; d1] x = Some w
  | C3 _ => transforms [0; 1; 2] x = Some w
  | _ => False
  end.
(** the values are only stored through the write macros *)
Definition no_poke (o : cop V) : Prop := match o with CPoke _ _ => False | _ => True end.
(** a well-formed coefficient request *)
Definition valid (o : cop V) : Prop :=
  match o with C1 _ d => d < 3 | C2 _ d1 d2 => d1 < 3 /\ d2 < 3 /\ d1 <> d2 | C3 _ => True | _ => False end.
End Spec.
