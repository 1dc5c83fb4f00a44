(** FieldModel.v - the field pool of a patch and the cache of spectral coefficients.
    Source: /repo/Src/Main/Modules/Fields/field.c (line numbers of this file).
    Not modelled: memory failure, v3 (never read by these functions), the arithmetic of the 1-d transform (an arbitrary
    function here; its own model is SpectralModel.v). *)
From Verif Require Import Base TextModel.

Section Field.
(** the array of values of a field on the patch, as a whole; [zeros] is calloc's *)
Variable V : Type.
Variable zeros : V.

(** Field_T, Core/typdef_data.h (struct FIELD_T): the parts used here *)
Record field := mkField {
  fname : str;
  fv : option V;          (* v : values *)
  fv2 : option V;         (* v2: coefficients *)
  finfo : option str;     (* info: which transformations v2 is the result of *)
  fattr : option str }.   (* attr *)

(** LookUpField, :148-172: index of the first field of that name, INT_MIN when there is none *)
Fixpoint lookup_from (i : Z) (n : str) (l : list field) : Z :=
  match l with
  | [] => INT_MIN
  | f :: l' => if str_eqb (fname f) n then i else lookup_from (i + 1) n l'
  end.
Definition LookUpField (n : str) (l : list field) : Z := lookup_from 0 n l.
(** LookUpField_E (the macro Ind), :174-187 *)
Definition Ind (n : str) (l : list field) : outcome Z :=
  let i := LookUpField n l in if (i =? INT_MIN)%Z then Abort else Ok i.

(** add_attribute, :92-121, on the attr string *)
Definition has_char (c : ascii) (s : str) : bool := existsb (ch_eqb c) s.
Definition add_attribute (attr : option str) (a : str) : outcome (option str) :=
  if negb (has_char "("%char a) || negb (has_char ")"%char a) then Abort
  else match attr with
       | Some s => match strstr s a with
                   | Some _ => Ok attr
                   | None => Ok (Some (s ++ a))
                   end
       | None => Ok (Some a)
       end.

(** add_field, :21-63; alloc = (alloc_flg == YES) *)
Definition add_field (n : str) (attribute : option str) (alloc : bool) (l : list field) : outcome (list field) :=
  if (0 <=? LookUpField n l)%Z then Abort
  else
    do a <- add_attribute None (match attribute with Some a => a | None => S_ "(3dim)" end);
    Ok (l ++ [mkField n (if alloc then Some zeros else None) None None a]).

(** patch->fields[i] = x *)
Fixpoint set_nth (i : nat) (x : field) (l : list field) : list field :=
  match l, i with
  | [], _ => []
  | _ :: l', O => x :: l'
  | y :: l', S i' => y :: set_nth i' x l'
  end.
(** remove_field, :65-90, of the field whose name is n: the last field takes its place *)
Definition remove_field (n : str) (l : list field) : list field :=
  let i := LookUpField n l in
  if (i <? 0)%Z then l
  else match rev l with
       | [] => l
       | last :: _ => removelast (set_nth (Z.to_nat i) last l)
       end.
(** remove_field(patch->fields[Ind(n)]), as in remove_aux_fields :981-985 *)
Definition remove_named (n : str) (l : list field) : outcome (list field) :=
  do _ <- Ind n l; Ok (remove_field n l).

(** remove_field_regex, :879-897; [m] tells which names the regular expression matches (arbitrary) *)
Fixpoint remove_loop (m : str -> bool) (fuel : nat) (i : nat) (l : list field) : outcome (list field) :=
  match fuel with
  | O => UB                                            (* proved unreachable *)
  | S k =>
    match nth_error l i with
    | None => Ok l
    | Some f => if m (fname f) then remove_loop m k i (remove_field (fname f) l)
                else remove_loop m k (S i) l
    end
  end.
Definition remove_field_regex (m : str -> bool) (l : list field) : outcome (list field) :=
  remove_loop m (S (List.length l)) 0 l.

(** find_field_index_regex, :123-146 *)
Fixpoint find_index_regex (m : str -> bool) (i : nat) (l : list field) : list nat :=
  match l with
  | [] => []
  | f :: l' => if m (fname f) then i :: find_index_regex m (S i) l' else find_index_regex m (S i) l'
  end.

(** add_aux_fields / remove_aux_fields, :953-990: a comma separated list, on every patch of the grid *)
Fixpoint omap_l {A} (f : A -> outcome A) (l : list A) : outcome (list A) :=
  match l with
  | [] => Ok []
  | a :: l' => do b <- f a; do bs <- omap_l f l'; Ok (b :: bs)
  end.
Fixpoint each_name (f : str -> list field -> outcome (list field)) (ns : list str) (g : list (list field)) : outcome (list (list field)) :=
  match ns with
  | [] => Ok g
  | n :: ns' => do g' <- omap_l (f n) g; each_name f ns' g'
  end.
Definition add_aux_fields (g : list (list field)) (names : str) : outcome (list (list field)) :=
  do ns <- read_separated_items names ","%char; each_name (fun n => add_field n None false) ns g.
Definition remove_aux_fields (g : list (list field)) (names : str) : outcome (list (list field)) :=
  do ns <- read_separated_items names ","%char; each_name remove_named ns g.

(** *** the coefficient cache *)
(** what a patch fixes: its number and, per direction, the codes of collocation and basis; [T] is the 1-d transform in a
    direction (coeffs_patch_Tn_*_1d), [None] when find_1d_coeffs_in_patch stops with an error *)
Variable pn : N.
Variable coll : nat -> Z.
Variable basis : nat -> Z.
Variable T : nat -> option (V -> V).

(** PR_FORMAT "(p%u,d%u,c%d,b%d)" and the two shorter needles, :8, 377-379, 447-453 *)
Definition needle_pd (d : nat) : str := "p"%char :: dec_N pn ++ S_ ",d" ++ dec_N (N.of_nat d).
Definition needle (d : nat) : str :=
  "("%char :: needle_pd d ++ S_ ",c" ++ dec_Z (coll d) ++ S_ ",b" ++ dec_Z (basis d) ++ S_ ")".
Definition has (s pat : str) : bool := match strstr s pat with Some _ => true | None => false end.

(** the state of one field: values, coefficients, info. The assertion that attr contains (3dim) is not modelled (attr is
    the attribute of add_field, which defaults to it). *)
Record cfield := mkC { cv : option V; cv2 : option V; cinfo : option str }.
Definition clean (f : cfield) : cfield := mkC (cv f) None None.

(** find_1d_coeffs_in_patch(f,dir), :565-599, with add_Tinfo, :796-815: needs values and a transform; the info grows *)
Definition find_1d (v : option V) (info : option str) (d : nat) : outcome (V * option str) :=
  match T d, v with
  | Some t, Some x => Ok (t x, Some (match info with Some s => s | None => [] end ++ needle d))
  | _, _ => Abort
  end.

(** IsAvailable_1d, :362-411 *)
Definition available_1d (f : cfield) (d : nat) : bool :=
  match cv2 f, cinfo f with
  | Some _, Some s =>
    if has s (needle_pd ((d + 1) mod 3)) || has s (needle_pd (3 - d - (d + 1) mod 3)) then false else has s (needle d)
  | _, _ => false
  end.
(** make_coeffs_1d, :204-225: returns v2 *)
Definition make_coeffs_1d (f : cfield) (d : nat) : outcome (cfield * V) :=
  if Nat.leb 3 d then Abort
  else if available_1d f d then match cv2 f with Some w => Ok (f, w) | None => UB end
  else do r <- find_1d (cv f) None d; Ok (mkC (cv f) (Some (fst r)) (snd r), fst r).

(** IsAvailable_2d, :413-513: None = not available, Some None = both there, Some (Some d) = direction d is missing *)
Definition available_2d (f : cfield) (d1 d2 : nat) : option (option nat) :=
  match cv2 f, cinfo f with
  | Some _, Some s =>
    if existsb (fun e => negb (Nat.eqb e d1) && negb (Nat.eqb e d2) && has s (needle_pd e)) [0; 1; 2] then None
    else if has s (needle d1) && has s (needle d2) then Some None
    else if has s (needle d1) then Some (Some d2)
    else if has s (needle d2) then Some (Some d1)
    else None
  | _, _ => None
  end.
(** make_coeffs_2d, :227-294 *)
Definition make_coeffs_2d (f : cfield) (d1 d2 : nat) : outcome (cfield * V) :=
  if Nat.leb 3 d1 || Nat.leb 3 d2 || Nat.eqb d1 d2 then Abort
  else match available_2d f d1 d2 with
       | Some None => match cv2 f with Some w => Ok (f, w) | None => UB end
       | Some (Some d) => do r <- find_1d (cv2 f) (cinfo f) d; Ok (mkC (cv f) (Some (fst r)) (snd r), fst r)
       | None => do r1 <- find_1d (cv f) None d1; do r2 <- find_1d (Some (fst r1)) (snd r1) d2;
                 Ok (mkC (cv f) (Some (fst r2)) (snd r2), fst r2)
       end.
(** IsAvailable_3d, :515-562, and make_coeffs_3d, :298-360 *)
Definition available_3d (f : cfield) : bool :=
  match cv2 f, cinfo f with
  | Some _, Some s => has s (needle 0) && has s (needle 1) && has s (needle 2)
  | _, _ => false
  end.
Definition make_coeffs_3d (f : cfield) : outcome (cfield * V) :=
  if available_3d f then match cv2 f with Some w => Ok (f, w) | None => UB end
  else do r1 <- find_1d (cv f) None 0; do r2 <- find_1d (Some (fst r1)) (snd r1) 1; do r3 <- find_1d (Some (fst r2)) (snd r2) 2;
       Ok (mkC (cv f) (Some (fst r3)) (snd r3), fst r3).

(** the ways the code gives a field new values.
    CWrite: WRITE_v (Modules/Includes/macros_lib.h:80-82), free_coeffs, then the values are stored through the pointer
    (before the next request; a pointer kept over a request and written again would be a CPoke);
    CRealloc: REALLOC_v_WRITE_v (:137-141), empty_field then new memory;
    CPoke: storing through field->v directly, without free_coeffs - what read_fields_from_checkpoint_file does
    (Checkpoint/checkpoint.c:694) *)
Inductive cop := CWrite (x : V) | CRealloc (x : V) | CPoke (x : V) | CEmpty | C1 (d : nat) | C2 (d1 d2 : nat) | C3.
Definition cstep (f : cfield) (o : cop) : outcome (cfield * option V) :=
  match o with
  | CWrite x => match cv f with Some _ => Ok (mkC (Some x) None None, None) | None => UB end
  | CRealloc x => Ok (mkC (Some x) None None, None)
  | CPoke x => Ok (mkC (Some x) (cv2 f) (cinfo f), None)
  | CEmpty => Ok (mkC None None None, None)
  | C1 d => do r <- make_coeffs_1d f d; Ok (fst r, Some (snd r))
  | C2 d1 d2 => do r <- make_coeffs_2d f d1 d2; Ok (fst r, Some (snd r))
  | C3 => do r <- make_coeffs_3d f; Ok (fst r, Some (snd r))
  end.
Fixpoint crun (f : cfield) (h : list cop) : outcome cfield :=
  match h with
  | [] => Ok f
  | o :: h' => do r <- cstep f o; crun (fst r) h'
  end.
End Field.
