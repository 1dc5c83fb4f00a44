(** ObsDispProofs.v - the if/else chains of obs_calculate.c say what the tables of ObsDispSpec.v say. *)
From Verif Require Import Base TextModel RegionModel RegionProofs GenObsDisp ObsDispModel ObsDispSpec.
Open Scope string_scope.

Lemma is_low q x : is q x = true -> map tolower q = map tolower (S_ x).
Proof. unfold is, strcmp_i. intros H. apply str_eqb_eq. exact H. Qed.
Lemma is_canon q q0 y : map tolower q = map tolower q0 -> is q y = is q0 y.
Proof. unfold is, strcmp_i. intros ->. reflexivity. Qed.
Lemma omap_ext {A B} (f h : A -> outcome B) l : (forall a, In a l -> f a = h a) -> omap f l = omap h l.
Proof. induction l as [|a l IH]; intros H; cbn; [reflexivity|]. rewrite (H a) by (left; reflexivity). rewrite IH; [reflexivity|]. intros b I. apply H. right. exact I. Qed.
Lemma omap_ok {A B} (f : A -> outcome B) (h : A -> B) l : (forall a, In a l -> f a = Ok (h a)) -> omap f l = Ok (map h l).
Proof. induction l as [|a l IH]; intros H; cbn; [reflexivity|]. rewrite (H a) by (left; reflexivity). cbn. rewrite IH; [reflexivity|]. intros b I. apply H. right. exact I. Qed.
Lemma omap_abort {A B} (f : A -> outcome B) l : l <> [] -> (forall a, f a = Abort) -> omap f l = Abort.
Proof. destruct l as [|a l]; [congruence|]. intros _ H. cbn. rewrite H. reflexivity. Qed.

Section C.
  Variables (q q0 m m0 : str) (Hq : map tolower q = map tolower q0) (Hm : map tolower m = map tolower m0).
  Let Q y : is q y = is q0 y. Proof. apply is_canon, Hq. Qed.
  Let M y : is m y = is m0 y. Proof. apply is_canon, Hm. Qed.
  Lemma row_canon rows : row_for rows q m = row_for rows q0 m0.
  Proof. unfold row_for. induction rows as [|r l IH]; cbn [find]; [reflexivity|]. rewrite Q, M, IH. reflexivity. Qed.
  Lemma P_canon k g n1 : calc_ADM_P k g q m n1 = calc_ADM_P k g q0 m0 n1.
  Proof.
    unfold calc_ADM_P.
    replace (collect_P k q m n1) with (collect_P k q0 m0 n1) by (unfold collect_P; rewrite !Q, !M; reflexivity).
    replace (volcheck_P k q) with (volcheck_P k q0) by (unfold volcheck_P; rewrite !Q; reflexivity).
    replace (formula_P k m) with (formula_P k m0) by (unfold formula_P; rewrite !M; reflexivity).
    assert (S : forall cov, surf_P k q m n1 cov = surf_P k q0 m0 n1 cov) by (intros; unfold surf_P; rewrite !Q, !M; reflexivity).
    unfold run. destruct (collect_P k q0 m0 n1) as [[v s]| |]; try reflexivity. cbn [obind fst snd].
    destruct (collected k g v) as [ps1| |]; try reflexivity. cbn [obind]. destruct (collected k g s) as [ps2| |]; try reflexivity. cbn [obind].
    destruct (omap _ ps1); try reflexivity. cbn [obind]. erewrite (omap_ext _ _ ps2); [reflexivity|]. intros p _. cbn beta. rewrite S. reflexivity.
  Qed.
  Lemma J_canon k g n1 : calc_ADM_J k g q m n1 = calc_ADM_J k g q0 m0 n1.
  Proof.
    unfold calc_ADM_J.
    replace (collect_J k q m n1) with (collect_J k q0 m0 n1) by (unfold collect_J; rewrite !Q, !M; reflexivity).
    replace (volcheck_J k q) with (volcheck_J k q0) by (unfold volcheck_J; rewrite !Q; reflexivity).
    replace (formula_J k m) with (formula_J k m0) by (unfold formula_J; rewrite !M; reflexivity).
    assert (S : forall cov, surf_J k q m n1 cov = surf_J k q0 m0 n1 cov) by (intros; unfold surf_J; rewrite !Q, !M; reflexivity).
    unfold run. destruct (collect_J k q0 m0 n1) as [[v s]| |]; try reflexivity. cbn [obind fst snd].
    destruct (collected k g v) as [ps1| |]; try reflexivity. cbn [obind]. destruct (collected k g s) as [ps2| |]; try reflexivity. cbn [obind].
    destruct (omap _ ps1); try reflexivity. cbn [obind]. erewrite (omap_ext _ _ ps2); [reflexivity|]. intros p _. cbn beta. rewrite S. reflexivity.
  Qed.
  Lemma M_canon k g n1 : calc_ADM_mass k g q m n1 = calc_ADM_mass k g q0 m0 n1.
  Proof.
    unfold calc_ADM_mass.
    replace (IsConf m) with (IsConf m0) by (unfold IsConf; rewrite !M; reflexivity).
    replace (collect_M k q m n1) with (collect_M k q0 m0 n1) by (unfold collect_M; rewrite !Q, !M; reflexivity).
    replace (formula_M k m) with (formula_M k m0) by (unfold formula_M; rewrite !M; reflexivity).
    assert (S : forall cov, surf_M k q m n1 cov = surf_M k q0 m0 n1 cov) by (intros; unfold surf_M; rewrite !Q, !M; reflexivity).
    unfold run, volcheck_M. destruct (collect_M k q0 m0 n1) as [[v s]| |]; try reflexivity. cbn [obind fst snd].
    destruct (collected k g v) as [ps1| |]; try reflexivity. cbn [obind]. destruct (collected k g s) as [ps2| |]; try reflexivity. cbn [obind].
    destruct (omap _ ps1); try reflexivity. cbn [obind]. erewrite (omap_ext _ _ ps2); [reflexivity|]. intros p _. cbn beta. rewrite S. reflexivity.
  Qed.
  Lemma K_canon k g n1 : calc_Kommar_mass k g q m n1 = calc_Kommar_mass k g q0 m0 n1.
  Proof.
    unfold calc_Kommar_mass.
    replace (collect_K k q m n1) with (collect_K k q0 m0 n1) by (unfold collect_K; rewrite !Q, !M; reflexivity).
    replace (formula_K k m) with (formula_K k m0) by (unfold formula_K; rewrite !M; reflexivity).
    assert (S : forall cov, surf_K k q m n1 cov = surf_K k q0 m0 n1 cov) by (intros; unfold surf_K; rewrite !Q, !M; reflexivity).
    unfold run, volcheck_K. destruct (collect_K k q0 m0 n1) as [[v s]| |]; try reflexivity. cbn [obind fst snd].
    destruct (collected k g v) as [ps1| |]; try reflexivity. cbn [obind]. destruct (collected k g s) as [ps2| |]; try reflexivity. cbn [obind].
    destruct (omap _ ps1); try reflexivity. cbn [obind]. erewrite (omap_ext _ _ ps2); [reflexivity|]. intros p _. cbn beta. rewrite S. reflexivity.
  Qed.
End C.

Section R.
  Variable T : patch -> list str.
  Lemma has_hasb l p : has T l p = hasb T (map S_ l) p.
  Proof. unfold has, hasb. induction l as [|t l IH]; cbn [existsb map]; [reflexivity|]. rewrite IH. reflexivity. Qed.
  Lemma hasb_same l l' : (forall t, In t l <-> In t l') -> forall p, hasb T l p = hasb T l' p.
  Proof.
    intros H p. destruct (hasb T l p) eqn:E; symmetry.
    - apply hasb_spec in E. destruct E as (t & I & J). apply hasb_spec. exists t. rewrite <- H. auto.
    - destruct (hasb T l' p) eqn:E'; [|reflexivity]. apply hasb_spec in E'. destruct E' as (t & I & J).
      rewrite <- E. symmetry. apply hasb_spec. exists t. rewrite H. auto.
  Qed.
  (** the string names the regions l *)
  Definition names (s : str) (l : list str) : Prop :=
    exists l', read_separated_items s ","%char = Ok l' /\ l' <> [] /\ Forall (fun t => In t dictionary) l' /\ (forall t, In t l' <-> In t l).
  Definition region_ok (v : option str) (l : list string) : Prop := match v with None => l = [] | Some s => l <> [] /\ names s (map S_ l) end.
  Lemma collected_ok k g v l : scs k -> Forall (tagged T) g -> region_ok v l ->
    collected k g v = if empty_region T g l then Abort else Ok (filter (has T l) g).
  Proof.
    intros K Tg. destruct v as [s|]; cbn [region_ok collected].
    - intros (N & l' & E & N' & D & I). rewrite (collect_ok T k g s l') by assumption.
      assert (X : filter (hasb T l') g = filter (has T l) g).
      { apply filter_ext. intros p. rewrite has_hasb. apply hasb_same, I. }
      rewrite X. destruct l as [|t l]; [congruence|]. cbn [empty_region].
      destruct (filter (has T (t :: l)) g) as [|p ps] eqn:F.
      + replace (existsb (has T (t :: l)) g) with false; [reflexivity|]. symmetry. apply existsb_false. intros p Ip.
        destruct (has T (t :: l) p) eqn:H; [|reflexivity]. assert (J : In p (filter (has T (t :: l)) g)) by (apply filter_In; auto). rewrite F in J. destruct J.
      + assert (J : In p (filter (has T (t :: l)) g)) by (rewrite F; left; reflexivity). apply filter_In in J.
        replace (existsb (has T (t :: l)) g) with true; [reflexivity|]. symmetry. apply existsb_exists. exists p. exact J.
    - intros ->. cbn. f_equal. clear. induction g; [reflexivity|assumption].
  Qed.
  Lemma covers k p s l : scs k -> tagged T p -> names s (map S_ l) -> IsItCovering k p s = Ok (has T l p).
  Proof.
    intros K Tp (l' & E & N' & D & I). rewrite (covering T k p s l') by assumption. f_equal. rewrite has_hasb. apply hasb_same, I.
  Qed.
  Lemma run_row k g mt coll vol surf form (r : row) v s :
    scs k -> Forall (tagged T) g -> coll = Ok (v, s) -> region_ok v (r_volume r) -> region_ok s (map fst (r_surface r)) ->
    (v = None \/ vol = Ok tt) ->
    (forall p, tagged T p -> has T (map fst (r_surface r)) p = true -> exists f, face_of T (r_surface r) p = Some f /\ surf p = Ok (Some (f, mt))) ->
    form = Ok (r_formula r) -> r_metric r = mt -> run k g mt coll vol surf form = expected T g r.
  Proof.
    intros K Tg -> Rv Rs V S -> <-. unfold run, expected. cbn [obind fst snd].
    rewrite (collected_ok k g v _ K Tg Rv). destruct (empty_region T g (r_volume r)); [reflexivity|]. cbn [obind orb].
    rewrite (collected_ok k g s _ K Tg Rs). destruct (empty_region T g (map fst (r_surface r))); [reflexivity|]. cbn [obind].
    assert (X1 : omap (fun p => do _ <- vol; Ok (mkitem p None (r_metric r) None)) (filter (has T (r_volume r)) g)
      = Ok (map (fun p => mkitem p None (r_metric r) None) (filter (has T (r_volume r)) g))).
    { destruct V as [->| ->].
      - cbn in Rv. rewrite Rv. replace (filter (has T []) g) with (@nil patch); [reflexivity|]. clear. induction g; [reflexivity|assumption].
      - apply omap_ok. intros; reflexivity. }
    rewrite X1. cbn [obind].
    rewrite (omap_ok _ (fun p => mkitem p (face_of T (r_surface r) p) (r_metric r) (Some (r_metric r)))).
    - cbn [obind]. reflexivity.
    - intros p Ip. apply filter_In in Ip. destruct Ip as [Ip Hp].
      destruct (S p) as (f & F1 & F2); [rewrite Forall_forall in Tg; auto|exact Hp|]. rewrite F2, F1. reflexivity.
  Qed.
  (** a non-empty volume region whose items are refused *)
  Lemma run_refused k g mt coll surf form l v s l2 :
    scs k -> Forall (tagged T) g -> coll = Ok (v, s) -> region_ok v l -> l <> [] -> region_ok s l2 ->
    run k g mt coll Abort surf form = Abort.
  Proof.
    intros K Tg -> Rv N Rs. unfold run. cbn [obind fst snd]. rewrite (collected_ok k g v l K Tg Rv).
    destruct (empty_region T g l) eqn:E; [reflexivity|]. cbn [obind]. rewrite (collected_ok k g s l2 K Tg Rs). destruct (empty_region T g l2); [reflexivity|]. cbn [obind].
    rewrite omap_abort; [reflexivity| |reflexivity].
    destruct l as [|t l]; [congruence|]. cbn [empty_region] in E. apply negb_false_iff, existsb_exists in E. destruct E as (p & I & J).
    intros F. assert (X : In p (filter (has T (t :: l)) g)) by (apply filter_In; auto). rewrite F in X. exact X.
  Qed.
End R.
