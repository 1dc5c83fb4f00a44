(** ParamSpec.v - what a user expects of the parameter database, written without the model:
    a map from lower-case names to entries.  Only [op] and [out] (the list of API calls and what
    they return) are shared with the model. *)
From Verif Require Import Base ParamModel.

(** two names are the same parameter iff they agree after lower-casing *)
Definition lower (s : str) : str := map tolower s.

(** ** Texts a user writes as a value *)
Definition contains (s pat : str) : Prop := exists b r, s = b ++ pat ++ r.
Definition all_digits (d : str) : Prop := Forall (fun c => is_digit c = true) d.
(** some "(xN)" occurs in s *)
Definition has_mult (s : str) : Prop :=
  exists b d r, s = b ++ S_ "(x" ++ d ++ S_ ")" ++ r /\ d <> [] /\ all_digits d.
Fixpoint join (sep : str) (l : list str) : str :=
  match l with
  | [] => []
  | [a] => a
  | a :: l' => a ++ sep ++ join sep l'
  end.
(** one item of an iterative value: v or v(xN) *)
Definition item : Type := str * option N.
Definition render_item (it : item) : str :=
  match it with
  | (v, None) => v
  | (v, Some n) => v ++ S_ "(x" ++ dec_N n ++ S_ ")"
  end.
Definition render (its : list item) : str := join (S_ "->") (map render_item its).
(** the values it stands for *)
Definition item_values (it : item) : list str :=
  match it with
  | (v, None) => [v]
  | (v, Some n) => repeat v (N.to_nat n)
  end.
Definition values (its : list item) : list str := flat_map item_values its.

Definition no_char (c : ascii) (s : str) : Prop := ~ In c s.
(** values are non-empty and do not use the characters of the notation; multiplicities are
    positive ints and the expanded text of an item fits in an unsigned int *)
Definition wf_item (it : item) : Prop :=
  fst it <> [] /\ no_char ">"%char (fst it) /\ no_char "("%char (fst it) /\
  match snd it with
  | None => True
  | Some n => (1 <= n)%N /\ (Z.of_N n <= INT_MAX)%Z /\
              (Z.of_N n * (Z.of_nat (List.length (fst it)) + 2) <= UINT_MAX + 1)%Z
  end.

(** A value as text: null pointer, blank, a plain value, or an iterative value *)
Inductive text :=
| TNull
| TBlank (sp : bool)
| TPlain (v : str)
| TIter (its : list item).
Definition raw (t : text) : option str :=
  match t with
  | TNull => None
  | TBlank sp => Some (if sp then [SP] else [])
  | TPlain v => Some v
  | TIter its => Some (render its)
  end.
Definition wf_text (t : text) : Prop :=
  match t with
  | TNull | TBlank _ => True
  | TPlain v => v <> [] /\ v <> [SP] /\ ~ contains v (S_ "->") /\ ~ has_mult v
  | TIter its => Forall wf_item its /\ 2 <= List.length (values its)
  end.

(** ** The map *)
Record entry := mkEntry {
  cur : option str;          (* current value, text *)
  vals : list str;           (* the values of an iterative parameter, [] if it is not iterative *)
  num : option dbl;          (* the number, if it was given as a number *)
  arr : option (list dbl) }. (* array value *)
Record smap := mkS {
  created : bool;                   (* has anything ever been put in *)
  ent : str -> option entry }.      (* by lower-case name *)
Definition s_init : smap := {| created := false; ent := fun _ => None |}.
Definition s_get (m : smap) (n : str) : option entry := ent m (lower n).
Definition s_put (m : smap) (n : str) (e : entry) : smap :=
  {| created := true;
     ent := fun k => if str_eqb k (lower n) then Some e else ent m k |}.
Definition s_del (m : smap) (n : str) : smap :=
  {| created := created m;
     ent := fun k => if str_eqb k (lower n) then None else ent m k |}.
Definition fresh (t : text) : entry :=
  match t with
  | TNull | TBlank _ => {| cur := None; vals := []; num := None; arr := None |}
  | TPlain v => {| cur := Some v; vals := []; num := None; arr := None |}
  | TIter its => {| cur := hd_error (values its); vals := values its; num := None; arr := None |}
  end.
Definition with_cur (c : option str) (x : option dbl) (e : entry) : entry :=
  {| cur := c; vals := vals e; num := x; arr := arr e |}.
(** n-th value, the last one beyond the end *)
Definition nth_clamped (l : list str) (n : nat) : option str :=
  nth_error l (Nat.min n (List.length l - 1)).

(** API calls with values as [text] *)
Inductive sop :=
| Ssets (n : str) (t : text)
| Sseti (n : str) (z : Z)
| Ssetd (n : str) (x : dbl)
| Sadds (n : str) (t : text)
| Saddd (n : str) (x : dbl)
| Sadda (n : str) (a : list dbl)
| Sseta (n : str) (a : list dbl)
| Sdefault (n : str) (t : text)
| Sfree (n : str)
| Sgets (n : str) (fatal : bool)
| Sgeti (n : str) (fatal : bool)
| Sgetd (n : str) (fatal : bool)
| Sgeta (n : str) (fatal : bool)
| Supdate_ip (k : nat).
Definition call (o : sop) : op :=
  match o with
  | Ssets n t => Psets n (raw t)
  | Sseti n z => Pseti n z
  | Ssetd n x => Psetd n x
  | Sadds n t => Padds n (raw t)
  | Saddd n x => Paddd n x
  | Sadda n a => Padda n a
  | Sseta n a => Pseta n a
  | Sdefault n t => Pdefault n (raw t)
  | Sfree n => Pfree n
  | Sgets n f => Pgets n f
  | Sgeti n f => Pgeti n f
  | Sgetd n f => Pgetd n f
  | Sgeta n f => Pgeta n f
  | Supdate_ip k => Pupdate_ip k
  end.
Definition wf_sop (o : sop) : Prop :=
  match o with
  | Ssets _ t | Sadds _ t | Sdefault _ t => wf_text t
  | Sseti _ z => int_range z = true
  | _ => True
  end.

Section Spec.
Variable strtod : str -> dbl.
Variable fmt20 : dbl -> str.

Definition s_read {A} (m : smap) (n : str) (fatal : bool) (dflt : A) (f : entry -> outcome A) : outcome A :=
  match s_get m n with
  | Some e => f e
  | None => if created m && fatal then Abort else Ok dflt
  end.
Definition number_of (e : entry) : outcome dbl :=
  match num e with
  | Some x => Ok x
  | None => match cur e with Some s => Ok (strtod s) | None => UB end
  end.
Definition num_entry (x : dbl) : entry :=
  {| cur := Some (fmt20 x); vals := []; num := Some x; arr := None |}.
Definition arr_entry (a : list dbl) : entry :=
  {| cur := None; vals := []; num := None; arr := Some a |}.

(** what each call must do *)
Definition s_step (m : smap) (o : sop) : outcome (smap * out) :=
  let w (m' : smap) := Ok (m', ONone) in
  match o with
  | Ssets n t => w (s_put m n (match s_get m n with Some e => with_cur (raw t) None e | None => fresh t end))
  | Sseti n z => w (s_put m n (match s_get m n with
                               | Some e => with_cur (Some (dec_Z z)) None e
                               | None => fresh (TPlain (dec_Z z)) end))
  | Ssetd n x => w (s_put m n (match s_get m n with
                               | Some e => with_cur (Some (fmt20 x)) (Some x) e
                               | None => num_entry x end))
  | Sadds n t => match s_get m n with Some _ => Abort | None => w (s_put m n (fresh t)) end
  | Saddd n x => match s_get m n with Some _ => Abort | None => w (s_put m n (num_entry x)) end
  | Sadda n a => match s_get m n with Some _ => Abort | None => w (s_put m n (arr_entry a)) end
  | Sseta n a => match s_get m n with
                 | Some e => match vals e with
                             | [] => w (s_put m n {| cur := cur e; vals := []; num := None; arr := Some a |})
                             | _ => Abort
                             end
                 | None => w (s_put m n (arr_entry a)) end
  | Sdefault n t => match s_get m n with
                    | None => w (s_put m n (fresh t))
                    | Some e => match cur e with
                                | None | Some [] => w (s_put m n (with_cur (raw t) None e))
                                | Some _ => w m
                                end
                    end
  | Sfree n => w (s_del m n)
  | Sgets n f => do s <- s_read m n f None (fun e => Ok (cur e)); Ok (m, OStr s)
  | Sgeti n f => do z <- s_read m n f INT_MAX (fun e => match cur e with Some s => atoi s | None => UB end);
                 Ok (m, OInt z)
  | Sgetd n f => do x <- s_read m n f DBL_MAX number_of; Ok (m, ODbl x)
  | Sgeta n f => do a <- s_read m n f None (fun e => Ok (arr e)); Ok (m, OArr a)
  | Supdate_ip k =>
    w {| created := created m;
         ent := fun q => match ent m q with
                         | Some e => Some (match vals e with
                                           | [] => e
                                           | _ => with_cur (nth_clamped (vals e) k) None e
                                           end)
                         | None => None
                         end |}
  end.
Fixpoint s_run (m : smap) (h : list sop) : outcome (smap * list out) :=
  match h with
  | [] => Ok (m, [])
  | o :: h' => do r <- s_step m o; do r' <- s_run (fst r) h'; Ok (fst r', snd r :: snd r')
  end.

(** no Pset_default of the history meets a parameter whose current value is the empty string *)
Fixpoint no_default_on_empty (m : smap) (h : list sop) : Prop :=
  match h with
  | [] => True
  | o :: h' =>
    match o with
    | Sdefault n _ => match s_get m n with Some e => cur e <> Some [] | None => True end
    | _ => True
    end /\
    match s_step m o with Ok (m', _) => no_default_on_empty m' h' | _ => True end
  end.
End Spec.
