(** NormModel.v - the norms of Src/Main/Modules/Maths/General/general.c.
    SIMPLIFICATIONS: a double is an exact real; an array is a function of the index, the null pointer None; a quotient by
    zero is None (no finite number); Uint n is a natural number; root_square_long (:66-87) is root_square with long n. *)
From Verif Require Import RealBase.
From Verif Require Base.
Import Base(outcome, Ok, Abort, UB).
Open Scope R_scope.
Definition arr := option (nat -> R).
(** the loops for(i = 0; i < n; i++) sum += ... *)
Fixpoint sum_to (n : nat) (f : nat -> R) : R := match n with O => 0 | S k => sum_to k f + f k end.
(** general.c:10-30 *)
Definition root_square (n : nat) (v2 v1 : arr) : R :=
  match v2, v1 with
  | None, None => 0
  | Some v, None => sqrt (sum_to n (fun i => Pow2 (v i)))
  | None, Some v => sqrt (sum_to n (fun i => Pow2 (v i)))
  | Some v, Some w => sqrt (sum_to n (fun i => Pow2 (v i - w i)))
  end.
(** general.c:35-38 *)
Definition L2_norm (n : nat) (v2 v1 : arr) : option R :=
  match n with O => None | _ => Some (root_square n v2 v1 / sqrt (INR n)) end.
(** general.c:43-62 *)
Definition L1_norm (n : nat) (v2 v1 : arr) : option R :=
  let mean s := match n with O => None | _ => Some (s / INR n) end in
  match v2, v1 with
  | None, None => Some 0
  | Some v, None => mean (sum_to n (fun i => Rabs (v i)))
  | None, Some v => mean (sum_to n (fun i => Rabs (v i)))
  | Some v, Some w => mean (sum_to n (fun i => Rabs (v i - w i)))
  end.
(** general.c:91-100 *)
Definition dot (n : nat) (v2 v1 : nat -> R) : R := sum_to n (fun i => v2 i * v1 i).
(** general.c:328-331 *)
Definition MaxMag_d (a b : R) : R := if Rlt_dec (Rabs b) (Rabs a) then Rabs a else Rabs b.
(** general.c:336-352: the loop from 1 *)
Fixpoint linf_loop (k : nat) (i : nat) (v : nat -> R) (mx : R) : R :=
  match k with
  | O => mx
  | S k => linf_loop k (S i) v (if Rlt_dec mx (Rabs (v i)) then Rabs (v i) else mx)
  end.
Definition L_inf (n : nat) (v : arr) : outcome R :=
  match v, n with
  | None, _ | _, O => Abort
  | Some v, S k => Ok (linf_loop k 1 v (Rabs (v 0%nat)))
  end.
