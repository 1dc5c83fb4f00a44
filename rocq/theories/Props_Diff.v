(** Props_Diff.v - C175: the reports on the difference of two fields. *)
From Verif Require Import RealBase NormModel NormProofs.
From Verif Require Import Base TextModel DiffModel DiffProofs.
Open Scope R_scope.
Open Scope list_scope.

(** C175. The convergence test.  [total n f] = f 0 + ... + f (n-1).  There is one line for each patch in order, (name, number n of nodes, Linf, L2, L1): with d the difference of the two fields, Linf is the largest |d|, L2 the
    root mean square and L1 the mean magnitude of d.  Each of the three is zero exactly if the fields agree at all nodes of the patch; L1 <= L2 <= Linf. *)
Theorem C175_test : forall an nu grid lines, test an nu grid = Ok lines ->
  let total n f := fold_right (fun i s => f i + s) 0 (seq 0 n) in
  Forall2 (fun p line => exists a b Linf L2 L1, d_fld p an = Some (Some a) /\ d_fld p nu = Some (Some b) /\
    let n := d_nn p in let d i := a i - b i in let agree := forall i, (i < n)%nat -> a i = b i in
    (0 < n)%nat /\ line = (d_name p, n, Linf, Some L2, Some L1) /\
    ((exists i, (i < n)%nat /\ Rabs (d i) = Linf) /\ forall i, (i < n)%nat -> Rabs (d i) <= Linf) /\
    L2 = sqrt (total n (fun i => d i * d i) / INR n) /\ L1 = total n (fun i => Rabs (d i)) / INR n /\
    0 <= L1 /\ L1 <= L2 /\ L2 <= Linf /\ (Linf = 0 <-> agree) /\ (L2 = 0 <-> agree) /\ (L1 = 0 <-> agree)) grid lines.
Proof.
  intros an nu grid lines H total. assert (T : forall n f, sum_to n f = total n f).
  { intros n f. unfold total. induction n as [|k IH]; [reflexivity|]. rewrite seq_S, fold_right_app. cbn [sum_to fold_right Nat.add]. rewrite IH.
    generalize (seq 0 k). intros l. induction l as [|x l IL]; cbn [fold_right]; [lra|]. rewrite <- IL. lra. }
  apply test_ok in H. revert H. apply Forall2_impl'. intros p l (a & b & m & s2 & s1 & Ea & Eb & N & El & M1 & M2 & H2 & H1 & P1 & P2 & P3).
  exists a, b, m, s2, s1. split; [exact Ea|]. split; [exact Eb|]. split; [exact N|]. split; [exact El|]. split; [split; [exact M1|exact M2]|].
  split; [rewrite <- T, <- H2; symmetry; apply sqrt_square; lra|]. split; [rewrite <- T; exact H1|]. split; [exact P1|]. split; [exact P2|]. split; [exact P3|].
  assert (A0 : (forall i, (i < d_nn p)%nat -> a i = b i) -> m = 0).
  { intros A. destruct M1 as [i [Hi Em]]. rewrite <- Em, A by exact Hi. rewrite Rminus_diag_eq by reflexivity. apply Rabs_R0. }
  assert (A1 : s1 = 0 -> forall i, (i < d_nn p)%nat -> a i = b i).
  { intros Z i Hi. pose proof (l1_val (d_nn p) (Some a) (Some b) N) as V. cbn [val] in V. rewrite <- H1, Z in V.
    exact (proj1 (l1_zero (d_nn p) (Some a) (Some b) N) V i Hi). }
  split; [|split]; split; intros Q.
  - apply A1. lra.
  - apply A0, Q.
  - apply A1. lra.
  - pose proof (A0 Q). lra.
  - apply A1, Q.
  - pose proof (A0 Q). lra.
Qed.
Print Assumptions C175_test.
(** It succeeds exactly if every patch has nodes and both fields with values. *)
Theorem C175_test_success : forall an nu grid, (exists lines, test an nu grid = Ok lines) <->
  Forall (fun p => (0 < d_nn p)%nat /\ (exists a, d_fld p an = Some (Some a)) /\ (exists b, d_fld p nu = Some (Some b))) grid.
Proof.
  intros an nu grid. split.
  - intros [ls H]. apply test_ok in H. induction H as [|p l t r Q _ IH]; constructor; [|exact IH].
    destruct Q as (a & b & _ & _ & _ & Ea & Eb & N & _). eauto.
  - induction 1 as [|p t (N & [a Ea] & [b Eb]) _ [r IH]]; [exists []; reflexivity|].
    destruct (row_ex an nu p a b Ea Eb N) as [l Hl]. exists (l :: r). apply test_ok. constructor; [exact Hl|]. apply test_ok, IH.
Qed.
Print Assumptions C175_test_success.
(** The files of pr_field_difference.  [before grid j]: the number of nodes of the patches before patch j.  Each patch has a file with a line for each of its nodes, and node l of patch j is the line with the number
    [before grid j + l] of the file of the grid, which has no other lines; a line is (number, second field, first field, magnitude of the difference). *)
Theorem C175_files : forall grid f1 f2 lines files, pr_field_difference grid f1 f2 = Ok (lines, files) ->
  let before j := list_sum (List.map d_nn (firstn j grid)) in
  List.length lines = before (List.length grid) /\ List.length files = List.length grid /\
  forall j p, nth_error grid j = Some p -> exists ls, nth_error files j = Some (d_name p, ls) /\ List.length ls = d_nn p /\
   ((0 < d_nn p)%nat -> exists a b, d_fld p f1 = Some (Some a) /\ d_fld p f2 = Some (Some b) /\
     forall l, (l < d_nn p)%nat -> nth_error ls l = Some (l, b l, a l, Rabs (b l - a l)) /\
       nth_error lines (before j + l) = Some ((before j + l)%nat, b l, a l, Rabs (b l - a l))).
Proof.
  intros grid f1 f2 lines files H before. apply diff_ok in H. destruct H as (H1 & H2 & H3). split; [unfold before; rewrite firstn_all; exact H1|].
  split; [exact H2|exact H3].
Qed.
Print Assumptions C175_files.
Theorem C175_files_success : forall grid f1 f2, (exists r, pr_field_difference grid f1 f2 = Ok r) <->
  Forall (fun p => exists a b, d_fld p f1 = Some a /\ d_fld p f2 = Some b /\ ((0 < d_nn p)%nat -> a <> None /\ b <> None)) grid.
Proof. intros grid f1 f2. apply diff_success. Qed.
Print Assumptions C175_files_success.
(** The two reports agree: the Linf of a patch is the largest number in the last column of its file. *)
Theorem C175_agree : forall an nu grid lines all files, test an nu grid = Ok lines -> pr_field_difference grid nu an = Ok (all, files) ->
  forall j name n Linf L2 L1, nth_error lines j = Some (name, n, Linf, L2, L1) ->
  exists ls, nth_error files j = Some (name, ls) /\ (exists k v w, In (k, v, w, Linf) ls) /\ forall k v w x, In (k, v, w, x) ls -> x <= Linf.
Proof.
  intros an nu grid lines all files Ht Hf j name n Linf L2 L1 Hl. apply test_ok in Ht. apply diff_ok in Hf. destruct Hf as (_ & _ & Hf).
  assert (K : exists p, nth_error grid j = Some p /\ row an nu p (name, n, Linf, L2, L1)).
  { revert j Hl Hf. clear - Ht. intros j Hl _. revert j Hl. induction Ht as [|p l t r Q Ht IH]; intros [|j] Hl; try discriminate.
    - injection Hl as ->. exists p. split; [reflexivity|exact Q].
    - exact (IH j Hl). }
  destruct K as (p & Ep & (a & b & m & s2 & s1 & Ea & Eb & N & El & M1 & M2 & _)).
  injection El as -> _ -> _ _.
  destruct (Hf j p Ep) as (ls & F1 & F2 & F3). destruct (F3 N) as (b' & a' & E1 & E2 & F4).
  assert (b' = b) by congruence. assert (a' = a) by congruence. subst a' b'.
  exists ls. split; [exact F1|]. split.
  - destruct M1 as [i [Hi Em]]. destruct (F4 i Hi) as [G _]. apply nth_error_In in G. rewrite Em in G. eauto.
  - intros k v w x Hin. apply In_nth_error in Hin. destruct Hin as [i Hi]. assert (Li : (i < d_nn p)%nat) by (rewrite <- F2; apply nth_error_Some; intros Z; pose proof (eq_trans (eq_sym Hi) Z); discriminate).
    destruct (F4 i Li) as [G _]. pose proof (eq_trans (eq_sym G) Hi) as Q. injection Q as _ _ _ <-. apply M2, Li.
Qed.
Print Assumptions C175_agree.
(** an empty patch passes the files but stops the test *)
Example C175_ex : let p n := mkD ["p"%char] n (fun _ => Some (Some (fun i => INR i))) in
  (exists r, pr_field_difference [p 0%nat; p 2%nat] ["a"%char] ["b"%char] = Ok r) /\ (exists r, test ["a"%char] ["b"%char] [p 2%nat; p 3%nat] = Ok r) /\
  test ["a"%char] ["b"%char] [p 2%nat; p 0%nat] = Abort.
Proof.
  cbv zeta. split; [|split].
  - apply C175_files_success. repeat constructor; do 2 eexists; (split; [reflexivity|split; [reflexivity|intros; split; discriminate]]).
  - apply C175_test_success. repeat constructor; cbn; eauto.
  - reflexivity.
Qed.
