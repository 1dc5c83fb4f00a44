(** ObsDispKomar.v - calc_Kommar_mass of obs_calculate.c equals its table. *)
From Verif Require Import Base TextModel RegionModel RegionProofs GenObsDisp ObsDispModel ObsDispSpec ObsDispProofs ObsDispTables.
Open Scope string_scope.

Section TablesK.
  Variable T : patch -> list str.
  Variables (k : kind) (g : list patch) (n1 : bool).
  Hypothesis K : scs k.
  Hypothesis Tg : Forall (tagged T) g.
  Lemma K_table q m : calc_Kommar_mass k g q m n1 = by_table T g (rows_K n1) q m.
  Proof.
    destruct (find_cases (rows_K n1) q m) as [(r & I & Eq & Em)|N].
    - apply is_low in Eq. apply is_low in Em. unfold by_table. rewrite (row_canon _ _ _ _ Eq Em), (K_canon _ _ _ _ Eq Em). clear q m Eq Em.
      assert (K' := K). unfold scs in K'. cbn [In] in K'.
      destruct n1; repeat (destruct I as [<-|I]); try (destruct I);
        match goal with |- context [row_for ?a ?b ?c] => let v := eval vm_compute in (row_for a b c) in change (row_for a b c) with v end; cbv iota;
        destruct K' as [K'|[K'|[K'|[K'|[K'|[]]]]]]; revert K; rewrite <- K'; intros Ks; unfold calc_Kommar_mass; solve_row Ks Tg.
    - unfold by_table. rewrite N. unfold calc_Kommar_mass.
      assert (C : collect_K k q m n1 = Abort \/ (exists s, In s ["BH_around_IB"; "BH1_around_IB"; "BH2_around_IB"] /\ collect_K k q m n1 = Ok (None, Some (S_ s)))
        /\ formula_K k m = Abort /\ forall cov, surf_K k q m n1 cov = Ok (Some (First, Phys))).
      { assert (KK := scs_kind k K). unfold collect_K, formula_K, surf_K.
        assert (KL : kind_in k [K_SCS_BHNS; K_SCS_NSNS; K_SCS_BHBH; K_SCS_SBH; K_SCS_SNS] = true) by (destruct k; first [reflexivity|discriminate KK]). rewrite KL.
        repeat (match goal with |- context [if is q ?x then _ else _] => let E := fresh "E" in destruct (is q x) eqn:E end);
          try (left; reflexivity);
          repeat (match goal with |- context [if is m ?x then _ else _] => let E := fresh "E" in destruct (is m x) eqn:E end);
          try (left; reflexivity);
          try (exfalso; match goal with E : is q ?x = true, E' : is m ?y = true |- _ => rewrite (row_canon _ _ _ _ (is_low _ _ E) (is_low _ _ E')) in N; destruct n1; vm_compute in N; discriminate N end);
          (right; split; [eexists; split; [|reflexivity]; first [left; reflexivity|right; left; reflexivity|right; right; left; reflexivity]|split; [reflexivity|reflexivity]]). }
      destruct C as [C|((s & Is & C) & F & S)]; [rewrite C; reflexivity|]. rewrite C, F. unfold run. cbn [obind fst snd collected omap].
      destruct (collect_patches k g (S_ s)) as [ps| |] eqn:E; cbn [obind].
      + rewrite (omap_ok _ (fun p => mkitem p (Some First) Phys (Some Phys))); [reflexivity|]. intros p _. rewrite S. reflexivity.
      + reflexivity.
      + exfalso. assert (R : region_ok (Some (S_ s)) [s]).
        { apply region_okb_ok. destruct Is as [<-|[<-|[<-|[]]]]; vm_compute; reflexivity. }
        pose proof (collected_ok T k g _ _ K Tg R) as X. cbn [collected] in X. rewrite E in X. destruct (empty_region T g [s]); discriminate.
  Qed.
End TablesK.
