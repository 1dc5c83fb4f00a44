(** StartProofs.v - proofs about StartModel.v *)
From Coq Require Import Reals Lra.
From Verif Require Import Base TextModel PhysModel StartModel.
Open Scope list_scope.
Local Open Scope string_scope.

(** *** one step of a program *)
Lemma run_add n l st : st n = None -> run (Add n :: l) st = run l (upd st n (Some None)).
Proof. intros E. cbn [run do_act]. rewrite E. reflexivity. Qed.
Lemma run_remove n l st : st n <> None -> run (Remove n :: l) st = run l (upd st n None).
Proof. intros E. cbn [run do_act]. destruct (st n); [reflexivity|congruence]. Qed.
Lemma run_put n v l st : st n <> None -> run (Put n v :: l) st = run l (upd st n (Some (Some v))).
Proof. intros E. cbn [run do_act]. unfold put. destruct (st n); [reflexivity|congruence]. Qed.
Lemma run_sum n a b e x y l st : st n <> None -> st a = Some (Some x) -> st b = Some (Some y) ->
  run (Sum n (Some a) (Some b) e :: l) st = run l (upd st n (Some (Some (x + y + e)%R))).
Proof. intros E A B. cbn [run do_act superimpose_simple]. unfold fetch. rewrite A, B. cbn [obind]. unfold put. destruct (st n); [reflexivity|congruence]. Qed.
Lemma run_const n e l st : st n <> None -> run (Sum n None None e :: l) st = run l (upd st n (Some (Some e))).
Proof. intros E. cbn [run do_act superimpose_simple]. unfold put. destruct (st n); [reflexivity|congruence]. Qed.
Lemma run_app l m st : run (l ++ m)%list st = do s <- run l st; run m s.
Proof. revert st. induction l as [|a l IH]; intros st; [reflexivity|]. cbn [List.app run]. destruct (do_act a st); cbn [obind]; [apply IH|reflexivity|reflexivity]. Qed.

(** the values of the fields of a store after a program *)
Definition after (st : fields) (vals : list (string * R)) (n : string) : option (option R) :=
  match lookup n vals with Some v => Some (Some v) | None => st n end.
Definition matter (s : nssol) : list (string * R) :=
  if s_inside s then [("enthalpy", s_h s); ("rho0", s_rho0 s); ("phi", s_phi s); ("W_U0", s_W0 s); ("W_U1", s_W1 s); ("W_U2", s_W2 s)] else [].
Definition exist (st : fields) (l : list string) : Prop := Forall (fun n => st n <> None) l.
Definition absent (st : fields) (l : list string) : Prop := Forall (fun n => st n = None) l.
Definition metric_fields : list string := ["psi"; "alphaPsi"; "beta_U0"; "beta_U1"; "beta_U2"].
Definition matter_fields : list string := ["enthalpy"; "rho0"; "phi"; "W_U0"; "W_U1"; "W_U2"].

Ltac lit := cbn [String.eqb Ascii.eqb Bool.eqb].
Ltac side := unfold upd; lit; first [discriminate | assumption | reflexivity].
Ltac steps := repeat first [rewrite run_add by side | rewrite run_remove by side | rewrite run_put by side | rewrite run_const by side
  | erewrite run_sum by side].
Ltac inv_forall H := repeat match type of H with Forall _ (_ :: _) => let H1 := fresh "E" in inversion H as [|? ? H1 H']; subst; clear H; rename H' into H end.
Ltac unpack H := repeat (apply Forall_cons_iff in H; let E := fresh "E" in destruct H as [E H]); clear H.
(** a field of the last store by its name *)
Ltac by_name := let n := fresh "n" in intros n; unfold after, lookup, upd; cbn [find fst snd List.app];
  repeat match goal with
  | |- context [String.eqb ?c n] => destruct (String.eqb_spec c n) as [<-|]; [lit; solve [reflexivity|assumption|symmetry; assumption|exfalso; congruence]|]
  | |- context [String.eqb n ?c] => destruct (String.eqb_spec n c) as [->|]; [lit; solve [reflexivity|assumption|symmetry; assumption|exfalso; congruence]|]
  end; reflexivity.

Section First.
Variable bh : bhkind -> obj -> bhsol.
Variable ns : obj -> nssol.
Definition ok_run (l : list act) (st : fields) (vals : list (string * R)) : Prop :=
  exists st', run l st = Ok st' /\ forall n, st' n = after st vals n.
Definition hole (s : bhsol) : list (string * R) :=
  [("psi", b_psi s); ("alphaPsi", b_alphaPsi s); ("beta_U0", b_beta0 s); ("beta_U1", b_beta1 s); ("beta_U2", b_beta2 s)].
Lemma run_hole k st : exist st metric_fields -> ok_run (populate_bh bh k BH "psi" "alphaPsi" "beta") st (hole (bh k BH)).
Proof.
  unfold exist, metric_fields, ok_run, populate_bh, hole. intros H. unpack H. cbv zeta. cbn [String.append]. steps. cbn [run].
  eexists. split; [reflexivity|]. by_name.
Qed.
Lemma run_bhns k t st : (t = "ks" \/ t = "is") -> exist st (metric_fields ++ matter_fields)%list ->
  absent st ["psi_" ++ t; "alphaPsi_" ++ t; "psi_tov"; "alphaPsi_tov"] ->
  ok_run (bhns bh ns k t) st
    ([("psi", (s_psi (ns NS) + b_psi (bh k BH) + -1)%R); ("alphaPsi", (s_alphaPsi (ns NS) + b_alphaPsi (bh k BH) + -1)%R);
      ("beta_U0", b_beta0 (bh k BH)); ("beta_U1", b_beta1 (bh k BH)); ("beta_U2", b_beta2 (bh k BH))] ++ matter (ns NS))%list.
Proof.
  unfold exist, absent, metric_fields, matter_fields, ok_run, bhns, populate_bh, populate_ns, adds, removes, sum2, matter. intros [->| ->] H A; cbn [List.app] in H; unpack H; unpack A;
    cbn [String.append] in *; cbv zeta; cbn [map]; destruct (s_inside (ns NS)); cbn [List.app]; steps; cbn [run]; (eexists; split; [reflexivity|]); by_name.
Qed.
Lemma run_bhbh k st : exist st metric_fields ->
  absent st ["psi_bh1"; "alphaPsi_bh1"; "beta_bh1_U0"; "beta_bh1_U1"; "beta_bh1_U2"; "psi_bh2"; "alphaPsi_bh2"; "beta_bh2_U0"; "beta_bh2_U1"; "beta_bh2_U2"] ->
  ok_run (bhbh bh k) st
    [("psi", (b_psi (bh k BH1) + b_psi (bh k BH2) + -1)%R); ("alphaPsi", (b_alphaPsi (bh k BH1) + b_alphaPsi (bh k BH2) + -1)%R);
     ("beta_U0", (b_beta0 (bh k BH1) + b_beta0 (bh k BH2) + -1)%R); ("beta_U1", (b_beta1 (bh k BH1) + b_beta1 (bh k BH2) + -1)%R);
     ("beta_U2", (b_beta2 (bh k BH1) + b_beta2 (bh k BH2) + -1)%R)].
Proof.
  unfold exist, absent, metric_fields, ok_run, bhbh, populate_bh, adds, removes, sum2. intros H A; unpack H; unpack A.
  cbv zeta. cbn [map String.append List.app]. steps; cbn [run]; (eexists; split; [reflexivity|]); by_name.
Qed.
Lemma run_nsns st : exist st (metric_fields ++ matter_fields)%list -> absent st ["psi_tov1"; "alphaPsi_tov1"; "psi_tov2"; "alphaPsi_tov2"] ->
  ok_run (nsns ns) st
    ([("psi", (s_psi (ns NS1) + s_psi (ns NS2) + -1)%R); ("alphaPsi", (s_alphaPsi (ns NS1) + s_alphaPsi (ns NS2) + -1)%R);
      ("beta_U0", 0%R); ("beta_U1", 0%R); ("beta_U2", 0%R)] ++ matter (ns NS2) ++ matter (ns NS1))%list.
Proof.
  unfold exist, absent, metric_fields, matter_fields, ok_run, nsns, populate_ns, no_shift, adds, removes, sum2, matter. intros H A; cbn [List.app] in H; unpack H; unpack A.
  cbv zeta. cbn [map]. destruct (s_inside (ns NS1)), (s_inside (ns NS2)); cbn [List.app]; steps; cbn [run]; (eexists; split; [reflexivity|]); by_name.
Qed.
Lemma run_sns st : exist st (metric_fields ++ matter_fields)%list ->
  ok_run (populate_ns ns NS "psi" "alphaPsi" ++ no_shift)%list st
    ([("psi", s_psi (ns NS)); ("alphaPsi", s_alphaPsi (ns NS)); ("beta_U0", 0%R); ("beta_U1", 0%R); ("beta_U2", 0%R)] ++ matter (ns NS))%list.
Proof.
  unfold exist, metric_fields, matter_fields, ok_run, populate_ns, no_shift, matter. intros H; cbn [List.app] in H; unpack H.
  cbv zeta. destruct (s_inside (ns NS)); cbn [List.app]; steps; cbn [run]; (eexists; split; [reflexivity|]); by_name.
Qed.
End First.
