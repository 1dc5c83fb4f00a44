(** FuncDerivModel.v - general.c: the functional derivative sums used in the Jacobians. *)
From Verif Require Import RealBase SpectralModel.
From Verif Require Base.
Import Base(outcome, Ok, Abort, UB, obind).
Open Scope R_scope.

(** maths_general_lib.h:6 Pow2 on int arguments *)
Definition Pow2Z (x : Z) : Z := (x * x)%Z.
(** general.h:16 Csc(a) = 1./sin(a) *)
Definition Csc (a : R) : option R := fdiv 1 (sin a).
(** general.h:17 Cot(a) = 1./tan(a).  Where cos(a) = 0 the tangent is infinite (in floating point: huge) and the
    quotient is 0. *)
Definition Cot (a : R) : option R := if Req_EM_T (cos a) 0 then Some 0 else fdiv 1 (tan a).

(** general.c:228-238, 259-268, 271-279: the expression with Csc(g/2)^3, not yet divided by 8 *)
Definition csc3_form (N : Z) (g : R) : option R :=
  let? c := Csc (g/2) in
  Some (c^3 * (IZR (Pow2Z (1 + N)) * sin ((/2 - IZR N) * g)
        + IZR (-1 + 2*N + 2*Pow2Z N) * sin ((/2 + IZR N) * g)
        - IZR (Pow2Z N) * sin ((3/2 + IZR N) * g))).
(** general.c:287-291, 297-307: the expression with Csc and Cot, not yet divided by 4 *)
Definition cot_form (N : Z) (g : R) : option R :=
  let? c := Csc (g/2) in
  let? t := Cot (g/2) in
  Some (c * (IZR (1 + 2*N) * cos ((/2 + IZR N) * g) - t * sin ((/2 + IZR N) * g))).

(** general.c:213-306 d_dq_sum_1_N_cos_ixb_cos_ixa.  Int products that overflow are undefined: [UB]; for N >= 0 the
    largest product of each branch is the one tested (the partial products are smaller).
    [Some None]-like values: [Ok None] is a division by zero. *)
Definition d_dq_sum_1_N_cos_ixb_cos_ixa (N : Z) (b a : R) : outcome (option R) :=
  if EQL a 0 then
    if EQL b 0 then
      if in_int (N*(N+1)*(2*N+1)) then Ok (Some (IZR (N*(N+1)*(2*N+1)) / 6)) else UB
    else
      if in_int (-1 + 2*N + 2*Pow2Z N) then
        Ok (let? e := csc3_form N b in Some (e / 8))
      else UB
  else if EQL a PI then
    if EQL b 0 then
      if Z.eqb (Z.rem N 2) 0 then
        let k := IZR N / 2 in Ok (Some (- (2 * Pow2 k + k)))
      else
        let k := IZR (N-1) / 2 in Ok (Some (2 * Pow2 k + 3 * k + 1))
    else if EQL b PI then
      if in_int (-N*(N+1)*(2*N+1)) then Ok (Some (IZR (-N*(N+1)*(2*N+1)) / 6)) else UB
    else
      if in_int (-1 + 2*N + 2*Pow2Z N) then
        Ok (let? e1 := csc3_form N (a+b) in
            let? e2 := csc3_form N (a-b) in
            Some ((e1 / 8 + e2 / 8) / -2))
      else UB
  else
    if EQL (a-b) 0 then
      Ok (let? e := cot_form N (a+b) in fdiv (e / 4) (-2 * sin a))
    else
      Ok (let? e1 := cot_form N (a+b) in
          let? e2 := cot_form N (a-b) in
          fdiv (e1 / 4 + e2 / 4) (-2 * sin a)).

(** general.c:114-149 sum_0_N_dCi_dfj_by_dTi_dq; (int)N-2 with N >= 2 *)
Definition sum_0_N_dCi_dfj_by_dTi_dq (N j : nat) (q : R) : outcome (option R) :=
  if (ltR q (-1) || ltR 1 q)%bool then Abort
  else if Nat.leb N j then Abort
  else
    let a := acos q in
    let n2 := (Z.of_nat N - 2)%Z in
    match fdiv (/2) (INR (N-1)) with
    | None => Ok None
    | Some scale =>
      if Nat.eqb j 0 then
        obind (d_dq_sum_1_N_cos_ixb_cos_ixa n2 0 a) (fun e =>
        Ok (let? d := e in Some ((INR (N-1) * Cheb_Un n2 q + 2 * d) * scale)))
      else if Nat.eqb j (N-1) then
        obind (d_dq_sum_1_N_cos_ixb_cos_ixa n2 PI a) (fun e =>
        Ok (let? d := e in Some ((INR (N-1) * Cheb_Un n2 q * SIGN j + 2 * d) * scale)))
      else
        match fdiv (INR j * PI) (INR (N-1)) with
        | None => Ok None
        | Some b =>
          obind (d_dq_sum_1_N_cos_ixb_cos_ixa n2 b a) (fun e =>
          Ok (let? d := e in Some ((2 * INR (N-1) * Cheb_Un n2 q * SIGN j + 4 * d) * scale)))
        end
    end.
