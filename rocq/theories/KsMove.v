(** KsMove.v - a point moving in a coordinate direction, with R and its derivatives. *)
From Coq Require Import Reals Lra Lia ZArith.
From Coquelicot Require Import Coquelicot.
Require Import Verif.GenKsX Verif.GenKsR Verif.KsCalc.
Local Open Scope R_scope.
Record movesR (P : kspar) (g : R -> ksarg) (k : nat) (t : R) : Prop := {
  mrM : moves g k t;
  mrR : is_derive (fun s => fR (g s)) t (kst_dR P (g t) k);
  mrdR : forall i, (i < 3)%nat -> is_derive (fun s => kst_dR P (g s) i) t
           (kst_ddR P (g t) (Nat.min i k) (Nat.max i k));
  mrddR : forall i j, (i <= j)%nat -> (j < 3)%nat ->
           is_derive (fun s => kst_ddR P (g s) i j) t (t3 (kst_dddR P (g t)) i j k) }.

Ltac hd :=
  lazymatch goal with H : movesR ?P ?g _ ?t |- _ =>
    destruct H as [H HR HdR HddR];
    pose proof (HdR 0%nat ltac:(lia)) as HdR0; pose proof (HdR 1%nat ltac:(lia)) as HdR1;
    pose proof (HdR 2%nat ltac:(lia)) as HdR2;
    pose proof (HddR 0%nat 0%nat ltac:(lia) ltac:(lia)) as HR00;
    pose proof (HddR 0%nat 1%nat ltac:(lia) ltac:(lia)) as HR01;
    pose proof (HddR 0%nat 2%nat ltac:(lia) ltac:(lia)) as HR02;
    pose proof (HddR 1%nat 1%nat ltac:(lia) ltac:(lia)) as HR11;
    pose proof (HddR 1%nat 2%nat ltac:(lia) ltac:(lia)) as HR12;
    pose proof (HddR 2%nat 2%nat ltac:(lia) ltac:(lia)) as HR22;
    clear HdR HddR;
    destruct H as [HX HY HZ H0 H1 H2 H3 H4 H5 H6 H7 H8];
    cbn [dirX dirY dirZ Nat.min Nat.max t3 Nat.ltb Nat.leb kst_dR kst_ddR kst_dddR] in
      HX, HY, HZ, HR, HdR0, HdR1, HdR2, HR00, HR01, HR02, HR11, HR12, HR22
  end.
Ltac genR P g t :=
  generalize (ks_dR_D0 P (g t)) (ks_dR_D1 P (g t)) (ks_dR_D2 P (g t))
   (ks_ddR_D0D0 P (g t)) (ks_ddR_D0D1 P (g t)) (ks_ddR_D0D2 P (g t)) (ks_ddR_D1D1 P (g t))
   (ks_ddR_D1D2 P (g t)) (ks_ddR_D2D2 P (g t))
   (ks_dddR_D0D0D0 P (g t)) (ks_dddR_D0D0D1 P (g t)) (ks_dddR_D0D0D2 P (g t))
   (ks_dddR_D0D1D1 P (g t)) (ks_dddR_D0D1D2 P (g t)) (ks_dddR_D0D2D2 P (g t))
   (ks_dddR_D1D1D1 P (g t)) (ks_dddR_D1D1D2 P (g t)) (ks_dddR_D1D2D2 P (g t)) (ks_dddR_D2D2D2 P (g t)).
(** [e <> 0] when e is a power of q, for a q in the context known to be non-zero *)
Ltac nzq :=
  lazymatch goal with
  | |- _ /\ _ => split; nzq
  | |- ?e <> 0 =>
    first [ assumption
      | match goal with Q : ?q <> 0 |- _ => 
          first [ replace e with q by ring; exact Q
                | replace e with (q ^ 2) by ring; apply pow_nonzero; exact Q
                | replace e with (q ^ 3) by ring; apply pow_nonzero; exact Q
                | replace e with (q ^ 4) by ring; apply pow_nonzero; exact Q ] end ] end.
