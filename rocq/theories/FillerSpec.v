(** FillerSpec.v - specification of an extrapolation: what "joins smoothly" means. *)
From Verif Require Import RealBase.
Open Scope R_scope.

(** The field seen along a ray: [inner] up to the surface r0 and [outer] beyond it. *)
Definition glued (r0 : R) (inner outer : R -> R) (r : R) : R := if Rle_dec r r0 then inner r else outer r.
(** differentiable everywhere off the centre *)
Definition diff (G G' : R -> R) : Prop := forall r, 0 < r -> derivable_pt_lim G r (G' r).
(** C0, C1 and C2 across the surface r0, with the given derivatives there *)
Definition C1_at (G : R -> R) (r0 d : R) : Prop := exists G', diff G G' /\ G' r0 = d /\ continuity_pt G' r0.
Definition C2_at (G : R -> R) (r0 d dd : R) : Prop := exists G', diff G G' /\ G' r0 = d /\ derivable_pt_lim G' r0 dd.

(** A function of three variables with (Frechet or Gateaux) differential dF: along every straight
    line its derivative is the sum of v_i dF_i. *)
Definition point := nat -> R.
Definition along (p v : point) (t : R) : point := fun i => p i + t * v i.
Definition has_gradient (F : point -> R) (dF : nat -> point -> R) : Prop :=
  forall p v, derivable_pt_lim (fun t => F (along p v t)) 0
     (v 0%nat * dF 0%nat p + v 1%nat * dF 1%nat p + v 2%nat * dF 2%nat p).
