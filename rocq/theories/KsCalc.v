(** KsCalc.v - rules of differentiation used for the analytic Kerr-Schild functions. *)
From Coq Require Import Reals Lra Lia ZArith.
From Coquelicot Require Import Coquelicot.
Require Import Verif.GenKsX.
Local Open Scope R_scope.

Lemma D_cast (f : R -> R) t (a b : R) : is_derive f t a -> a = b -> is_derive f t b.
Proof. intros H <-; exact H. Qed.
Lemma D_const (c t : R) : is_derive (fun _ : R => c) t 0.
Proof. apply @is_derive_const. Qed.
Lemma D_plus (f g : R -> R) t a b : is_derive f t a -> is_derive g t b ->
  is_derive (fun s => f s + g s) t (a + b).
Proof. intros; apply @is_derive_plus; assumption. Qed.
Lemma D_minus (f g : R -> R) t a b : is_derive f t a -> is_derive g t b ->
  is_derive (fun s => f s - g s) t (a - b).
Proof. intros; apply @is_derive_minus; assumption. Qed.
Lemma D_opp (f : R -> R) t a : is_derive f t a -> is_derive (fun s => - f s) t (- a).
Proof. intros; apply @is_derive_opp; assumption. Qed.
Lemma D_mult (f g : R -> R) t a b : is_derive f t a -> is_derive g t b ->
  is_derive (fun s => f s * g s) t (a * g t + f t * b).
Proof. intros Hf Hg. apply (is_derive_mult f g t a b Hf Hg). intros; apply Rmult_comm. Qed.
Lemma D_scal (c : R) (f : R -> R) t a : is_derive f t a ->
  is_derive (fun s => c * f s) t (c * a).
Proof. intros Hf. exact (is_derive_scal f t c a Hf). Qed.
Lemma D_div (f g : R -> R) t a b : g t <> 0 -> is_derive f t a -> is_derive g t b ->
  is_derive (fun s => f s / g s) t ((a * g t - f t * b) / (g t ^ 2)).
Proof. intros. apply is_derive_div; assumption. Qed.
Lemma D_divc (f : R -> R) c t a : is_derive f t a -> is_derive (fun s => f s / c) t (a / c).
Proof.
  intros H. unfold Rdiv. rewrite (Rmult_comm a). apply (is_derive_ext (fun s => / c * f s)).
  intros; apply Rmult_comm. apply D_scal; exact H.
Qed.
Lemma D_inv (g : R -> R) t b : g t <> 0 -> is_derive g t b ->
  is_derive (fun s => / g s) t (- b / (g t ^ 2)).
Proof. intros. apply is_derive_inv; assumption. Qed.
Lemma D_pow (f : R -> R) n t a : is_derive f t a ->
  is_derive (fun s => f s ^ S n) t (IZR (Z.of_nat (S n)) * f t ^ n * a).
Proof.
  intros H. eapply D_cast. apply is_derive_pow; exact H.
  rewrite <- INR_IZR_INZ. change (pred (S n)) with n. ring.
Qed.
Lemma D_sqrt (f : R -> R) t a : 0 < f t -> is_derive f t a ->
  is_derive (fun s => sqrt (f s)) t (a / (2 * sqrt (f t))).
Proof. intros. eapply D_cast. apply is_derive_sqrt; eassumption. reflexivity. Qed.

(** differentiates structurally; leaves the side conditions (non-zero divisors, positive
    radicands) and uses the hypotheses of the context at the leaves *)
Ltac dv :=
  lazymatch goal with
  | |- is_derive (fun _ => ?c) ?t _ => exact (D_const c t)
  | |- is_derive (fun s => @?f s + @?g s) ?t _ => eapply (D_plus f g t); dv
  | |- is_derive (fun s => @?f s - @?g s) ?t _ => eapply (D_minus f g t); dv
  | |- is_derive (fun s => @?f s * @?g s) ?t _ =>
      lazymatch f with
      | fun _ => ?c => eapply (D_scal c g t); dv
      | _ => eapply (D_mult f g t); dv
      end
  | |- is_derive (fun s => @?f s / @?g s) ?t _ =>
      lazymatch g with
      | fun _ => ?c => eapply (D_divc f c t); dv
      | _ => eapply (D_div f g t); [ | dv | dv]
      end
  | |- is_derive (fun s => / @?g s) ?t _ => eapply (D_inv g t); [ | dv]
  | |- is_derive (fun s => - @?f s) ?t _ => eapply (D_opp f t); dv
  | |- is_derive (fun s => @?f s ^ S ?n) ?t _ => eapply (D_pow f n t); dv
  | |- is_derive (fun s => sqrt (@?f s)) ?t _ => eapply (D_sqrt f t); [ | dv]
  | H : is_derive ?f ?t _ |- is_derive ?f ?t _ => exact H
  end.
Ltac dvz := cbn [Z.of_nat Pos.of_succ_nat Pos.succ].


Ltac side := repeat first [match goal with H : ?x |- ?x => exact H end | apply pow_nonzero].

(** the derivative in direction i of the moved coordinates, by name of the C struct fields *)
Definition dirX (i : nat) (f : ksarg) : R := match i with O => fdX0 f | 1%nat => fdX1 f | _ => fdX2 f end.
Definition dirY (i : nat) (f : ksarg) : R := match i with O => fdY0 f | 1%nat => fdY1 f | _ => fdY2 f end.
Definition dirZ (i : nat) (f : ksarg) : R := match i with O => fdZ0 f | 1%nat => fdZ1 f | _ => fdZ2 f end.

(** [g] moves the point in coordinate direction [i]: X, Y, Z change with the rates stored in the
    struct, and those rates themselves do not change. *)
Record moves (g : R -> ksarg) (i : nat) (t : R) : Prop := {
  mvX : is_derive (fun s => fX (g s)) t (dirX i (g t));
  mvY : is_derive (fun s => fY (g s)) t (dirY i (g t));
  mvZ : is_derive (fun s => fZ (g s)) t (dirZ i (g t));
  mvX0 : is_derive (fun s => fdX0 (g s)) t 0; mvX1 : is_derive (fun s => fdX1 (g s)) t 0;
  mvX2 : is_derive (fun s => fdX2 (g s)) t 0;
  mvY0 : is_derive (fun s => fdY0 (g s)) t 0; mvY1 : is_derive (fun s => fdY1 (g s)) t 0;
  mvY2 : is_derive (fun s => fdY2 (g s)) t 0;
  mvZ0 : is_derive (fun s => fdZ0 (g s)) t 0; mvZ1 : is_derive (fun s => fdZ1 (g s)) t 0;
  mvZ2 : is_derive (fun s => fdZ2 (g s)) t 0 }.

(** the second and third derivatives of X, Y, Z are the constant 0 in the code *)
Ltac unf0 := cbv beta delta [ks_ddX_D0D0 ks_dddX_D0D0D0 ks_dddX_D0D0D1 ks_dddX_D0D0D2 ks_ddX_D0D1 ks_dddX_D0D1D0 ks_dddX_D0D1D1 ks_dddX_D0D1D2 ks_ddX_D0D2 ks_dddX_D0D2D0 ks_dddX_D0D2D1 ks_dddX_D0D2D2 ks_ddX_D1D1 ks_dddX_D1D1D0 ks_dddX_D1D1D1 ks_dddX_D1D1D2 ks_ddX_D1D2 ks_dddX_D1D2D0 ks_dddX_D1D2D1 ks_dddX_D1D2D2 ks_ddX_D2D2 ks_dddX_D2D2D0 ks_dddX_D2D2D1 ks_dddX_D2D2D2 ks_ddY_D0D0 ks_dddY_D0D0D0 ks_dddY_D0D0D1 ks_dddY_D0D0D2 ks_ddY_D0D1 ks_dddY_D0D1D0 ks_dddY_D0D1D1 ks_dddY_D0D1D2 ks_ddY_D0D2 ks_dddY_D0D2D0 ks_dddY_D0D2D1 ks_dddY_D0D2D2 ks_ddY_D1D1 ks_dddY_D1D1D0 ks_dddY_D1D1D1 ks_dddY_D1D1D2 ks_ddY_D1D2 ks_dddY_D1D2D0 ks_dddY_D1D2D1 ks_dddY_D1D2D2 ks_ddY_D2D2 ks_dddY_D2D2D0 ks_dddY_D2D2D1 ks_dddY_D2D2D2 ks_ddZ_D0D0 ks_dddZ_D0D0D0 ks_dddZ_D0D0D1 ks_dddZ_D0D0D2 ks_ddZ_D0D1 ks_dddZ_D0D1D0 ks_dddZ_D0D1D1 ks_dddZ_D0D1D2 ks_ddZ_D0D2 ks_dddZ_D0D2D0 ks_dddZ_D0D2D1 ks_dddZ_D0D2D2 ks_ddZ_D1D1 ks_dddZ_D1D1D0 ks_dddZ_D1D1D1 ks_dddZ_D1D1D2 ks_ddZ_D1D2 ks_dddZ_D1D2D0 ks_dddZ_D1D2D1 ks_dddZ_D1D2D2 ks_ddZ_D2D2 ks_dddZ_D2D2D0 ks_dddZ_D2D2D1 ks_dddZ_D2D2D2].
Ltac gen_arg P g t :=
  generalize (fX (g t)) (fY (g t)) (fZ (g t)) (fR (g t)) (fdX0 (g t)) (fdX1 (g t)) (fdX2 (g t))
   (fdY0 (g t)) (fdY1 (g t)) (fdY2 (g t)) (fdZ0 (g t)) (fdZ1 (g t)) (fdZ2 (g t))
   (pa P) (phs P) (pM P) (pL P).
Ltac gen_sqrt :=
  repeat match goal with
  | |- context[sqrt ?e] => let s := fresh "sq" in set (s := sqrt e) in *; clearbody s
  end.

(** the entry of a table of third derivatives at the sorted indices (for i <= j) *)
Definition t3 (T : nat -> nat -> nat -> R) (i j k : nat) : R :=
  if (k <? i)%nat then T k i j else if (k <? j)%nat then T i k j else T i j k.
Ltac cbt := cbn [dirX dirY dirZ Nat.min Nat.max t3 Nat.ltb Nat.leb].
Ltac cbt_in H := cbn [dirX dirY dirZ Nat.min Nat.max t3 Nat.ltb Nat.leb] in H.
