(** FolderProofs.v - proofs of C23 and C43. *)
From Coq Require FinFun.
From Verif Require Import Base FolderModel.

Lemma mem_In x l : mem x l = true <-> In x l.
Proof.
  unfold mem. rewrite existsb_exists. split.
  - intros (y & I & E). apply str_eqb_eq in E. subst. exact I.
  - intros I. exists x. split; [exact I|apply str_eqb_refl].
Qed.
Lemma mem_nIn x l : mem x l = false <-> ~ In x l.
Proof. rewrite <- mem_In. destruct (mem x l); split; congruence. Qed.
Lemma read_zeros k s : read_digits (repeat "0"%char k ++ s) 0 = read_digits s 0.
Proof. induction k as [|k IH]; [reflexivity|]. cbn [repeat List.app read_digits]. exact IH. Qed.
Lemma read_pad w n : read_digits (pad w n) 0 = n.
Proof. unfold pad. rewrite read_zeros. apply read_dec_N. Qed.
Lemma pad_inj w m n : pad w m = pad w n -> m = n.
Proof. intros H. rewrite <- (read_pad w m), <- (read_pad w n), H. reflexivity. Qed.
Lemma folder_path_inj w path name i j : folder_path w path name i = folder_path w path name j -> i = j.
Proof.
  unfold folder_path. intros H. do 4 apply app_inv_head in H. apply pad_inj in H. lia.
Qed.
(** the loop finds the least free index; it ends within the fuel because only length fs paths exist *)
Lemma probe_spec w fs path name : forall fuel i,
  (forall j, j < i -> In (folder_path w path name j) fs) -> List.length fs < i + fuel ->
  (forall j, j <= List.length fs -> List.length (folder_path w path name j) < MAX_ARR) ->
  exists k, probe w fs path name fuel i = Ok k /\ ~ In (folder_path w path name k) fs /\ (forall j, j < k -> In (folder_path w path name j) fs).
Proof.
  induction fuel as [|f IH]; intros i HI HF HL.
  - exfalso. assert (ND : NoDup (map (folder_path w path name) (seq 0 i))).
    { apply FinFun.Injective_map_NoDup; [intros a b; apply folder_path_inj|apply seq_NoDup]. }
    assert (INC : incl (map (folder_path w path name) (seq 0 i)) fs).
    { intros x Hx. apply in_map_iff in Hx. destruct Hx as (j & <- & Hj). apply in_seq in Hj. apply HI. lia. }
    pose proof (NoDup_incl_length ND INC) as L. rewrite map_length, seq_length in L. lia.
  - cbn [probe]. assert (LI : i <= List.length fs).
    { destruct (Nat.le_gt_cases i (List.length fs)) as [L|L]; [exact L|]. exfalso.
      assert (ND : NoDup (map (folder_path w path name) (seq 0 i))).
      { apply FinFun.Injective_map_NoDup; [intros a b; apply folder_path_inj|apply seq_NoDup]. }
      assert (INC : incl (map (folder_path w path name) (seq 0 i)) fs).
      { intros x Hx. apply in_map_iff in Hx. destruct Hx as (j & <- & Hj). apply in_seq in Hj. apply HI. lia. }
      pose proof (NoDup_incl_length ND INC) as L'. rewrite map_length, seq_length in L'. lia. }
    destruct (Nat.leb_spec MAX_ARR (List.length (folder_path w path name i))) as [L|L]; [specialize (HL i LI); lia|].
    destruct (mem (folder_path w path name i) fs) eqn:E.
    + apply IH; [|lia|exact HL]. intros j Hj. destruct (Nat.eq_dec j i) as [->|N]; [apply mem_In; exact E|apply HI; lia].
    + exists i. split; [reflexivity|]. split; [apply mem_nIn; exact E|exact HI].
Qed.
(** without the length condition: what an Ok says *)
Lemma probe_ok w fs path name k : forall fuel i,
  (forall j, j < i -> In (folder_path w path name j) fs) -> probe w fs path name fuel i = Ok k ->
  ~ In (folder_path w path name k) fs /\ (forall j, j < k -> In (folder_path w path name j) fs) /\ List.length (folder_path w path name k) < MAX_ARR.
Proof.
  induction fuel as [|f IH]; intros i HI H; cbn [probe] in H; [discriminate|].
  destruct (Nat.leb_spec MAX_ARR (List.length (folder_path w path name i))) as [L|L]; [discriminate|].
  destruct (mem (folder_path w path name i) fs) eqn:E.
  - apply (IH (S i)); [|exact H]. intros j Hj. destruct (Nat.eq_dec j i) as [->|N]; [apply mem_In; exact E|apply HI; lia].
  - injection H as <-. split; [apply mem_nIn; exact E|]. split; [exact HI|exact L].
Qed.
Theorem make_directory_fresh can fs path name :
  (forall j, j <= List.length fs -> List.length (folder_path 2 path name j) < MAX_ARR) ->
  exists i, make_directory can fs path name =
      Ok (folder_path 2 path name i, if can (folder_path 2 path name i) then folder_path 2 path name i :: fs else fs) /\
    ~ In (folder_path 2 path name i) fs /\ (forall j, j < i -> In (folder_path 2 path name j) fs).
Proof.
  intros HL. destruct (probe_spec 2 fs path name (S (List.length fs)) 0 ltac:(lia) ltac:(lia) HL) as (k & E & A & B).
  exists k. unfold make_directory. rewrite E. auto.
Qed.
Lemma make_ok can fs path name d fs' : make_directory can fs path name = Ok (d, fs') ->
  exists i, d = folder_path 2 path name i /\ ~ In d fs /\ (fs' = fs \/ fs' = d :: fs) /\ (can d = true -> fs' = d :: fs).
Proof.
  unfold make_directory. destruct (probe 2 fs path name (S (List.length fs)) 0) as [k| |] eqn:E; cbn [obind]; try discriminate.
  intros H. injection H as <- <-. apply probe_ok in E; [|lia]. exists k. destruct E as (A & _). split; [reflexivity|]. split; [exact A|].
  destruct (can _); split; auto. discriminate.
Qed.
(** *** open_folder never finds what make_folder made *)
Definition ends_0000 (s : str) : Prop := exists t, s = t ++ S_ "_0000".
Lemma last_underscore a b : forall s t, ~ In "_"%char a -> ~ In "_"%char b -> s ++ "_"%char :: a = t ++ "_"%char :: b -> a = b /\ s = t.
Proof.
  induction s as [|c s IH]; intros t NA NB E; destruct t as [|d t]; cbn in E.
  - injection E as E. auto.
  - injection E as <- E. exfalso. apply NA. rewrite E. apply in_app_iff. right. left. reflexivity.
  - injection E as -> E. exfalso. apply NB. rewrite <- E. apply in_app_iff. right. left. reflexivity.
  - injection E as -> E. destruct (IH t NA NB E) as [-> ->]. auto.
Qed.
Lemma pad_no_us w n : ~ In "_"%char (pad w n).
Proof.
  unfold pad. rewrite in_app_iff. intros [K|K].
  - apply repeat_spec in K. discriminate.
  - pose proof (dec_N_digits n) as D. rewrite Forall_forall in D. apply D in K. discriminate.
Qed.
Lemma pad2_not_0000 n : pad 2 n <> S_ "0000".
Proof.
  intros H. assert (N0 := f_equal (fun s => read_digits s 0) H). cbv beta in N0. rewrite read_pad in N0.
  change (read_digits (S_ "0000") 0) with 0%N in N0. subst n. vm_compute in H. discriminate.
Qed.
Lemma folder2_not_0000 path name i : ~ ends_0000 (folder_path 2 path name i).
Proof.
  intros (t & H). unfold folder_path in H. rewrite !app_assoc in H.
  change (S_ "_0000") with ("_"%char :: S_ "0000") in H. change (S_ "_") with ["_"%char] in H. rewrite <- app_assoc in H. cbn [List.app] in H.
  apply last_underscore in H.
  - apply (pad2_not_0000 _ (proj1 H)).
  - apply pad_no_us.
  - vm_compute. intuition discriminate.
Qed.
Lemma folder4_0 path name : ends_0000 (folder_path 4 path name 0).
Proof. exists (path ++ S_ "/" ++ name). unfold folder_path. rewrite <- !app_assoc. reflexivity. Qed.
Lemma open_makes can fs top name r : (forall x, In x fs -> ~ ends_0000 x) -> open_folder can fs top name = Ok r ->
  make_directory can fs top name = Ok r.
Proof.
  intros H. unfold open_folder. destruct (probe 4 fs top name (S (List.length fs)) 0) as [k| |] eqn:E; cbn [obind]; try discriminate.
  destruct k as [|k]; [auto|]. exfalso. apply probe_ok in E; [|lia]. destruct E as (_ & E & _).
  apply (H _ (E 0 ltac:(lia))). apply folder4_0.
Qed.
Lemma run_fresh can top h : forall fs ds fs', (forall x, In x fs -> ~ ends_0000 x) -> (forall d, can d = true) -> d_run can top fs h = Ok (ds, fs') ->
  NoDup ds /\ (forall d, In d ds -> ~ In d fs) /\ (forall x, In x fs' <-> In x fs \/ In x ds).
Proof.
  induction h as [|o h IH]; intros fs ds fs' HF HC H; cbn [d_run] in H.
  - injection H as <- <-. split; [constructor|]. split; [intros d []|]. cbn. tauto.
  - destruct (d_step can top fs o) as [[d fs1]| |] eqn:E; cbn [obind fst snd] in H; try discriminate.
    destruct (d_run can top fs1 h) as [[ds1 fs2]| |] eqn:E2; cbn [obind fst snd] in H; try discriminate. injection H as <- <-.
    assert (M : exists n, make_directory can fs top n = Ok (d, fs1)).
    { destruct o as [n|n]; cbn [d_step] in E; [exists n; exact E|]. exists n. apply open_makes; assumption. }
    destruct M as (n & M). apply make_ok in M. destruct M as (i & Ed & NI & _ & HS). rewrite (HS (HC d)) in E2.
    destruct (IH (d :: fs) ds1 fs2) as (A & B & C); try assumption.
    { intros x [<-|Hx]; [rewrite Ed; apply folder2_not_0000|apply HF; exact Hx]. }
    split; [|split].
    + constructor; [|exact A]. intros K. apply (B d K). left. reflexivity.
    + intros x [<-|Hx]; [exact NI|]. intros K. apply (B x Hx). right. exact K.
    + intros x. rewrite C. cbn [In]. tauto.
Qed.
(** *** the names from the path *)
Lemma strrchr_none s c : ~ In c s -> strrchr s c = None.
Proof.
  induction s as [|d s IH]; intros H; [reflexivity|]. cbn [strrchr]. rewrite IH by (intros K; apply H; right; exact K).
  destruct (ascii_dec d c) as [E|]; [|reflexivity]. exfalso. apply H. left. exact E.
Qed.
Lemma strrchr_last a b c : ~ In c b -> strrchr (a ++ c :: b) c = Some (a, b).
Proof.
  intros H. induction a as [|d a IH]; cbn [List.app strrchr].
  - rewrite strrchr_none by exact H. destruct (ascii_dec c c); [reflexivity|congruence].
  - rewrite IH. reflexivity.
Qed.
Lemma skipn_len {A} (a b : list A) : skipn (List.length a) (a ++ b) = b.
Proof. induction a; cbn; auto. Qed.
Lemma firstn_len {A} (a b : list A) : firstn (List.length a) (a ++ b) = a.
Proof. induction a; cbn; f_equal; auto. Qed.
Theorem file_name_in_dir dir stem ext : ~ In "/"%char stem -> ~ In "/"%char ext -> ~ In "."%char ext ->
  List.length (dir ++ S_ "/" ++ stem ++ S_ "." ++ ext) < MAX_ARR ->
  find_inputfile_name (dir ++ S_ "/" ++ stem ++ S_ "." ++ ext) = Ok (stem ++ S_ "." ++ ext, stem) /\
  find_relative_root_path (dir ++ S_ "/" ++ stem ++ S_ "." ++ ext) = Ok dir.
Proof.
  intros HS HE HD HL. change (S_ "/") with ["/"%char] in *. change (S_ ".") with ["."%char] in *. cbn [List.app] in *.
  assert (NS : ~ In "/"%char (stem ++ "."%char :: ext)).
  { rewrite in_app_iff. cbn [In]. intros [K|[K|K]]; [exact (HS K)|discriminate|exact (HE K)]. }
  split.
  - unfold find_inputfile_name.
    replace (dir ++ "/"%char :: stem ++ "."%char :: ext) with ((dir ++ "/"%char :: stem) ++ "."%char :: ext) at 1 by (rewrite <- app_assoc; reflexivity).
    rewrite strrchr_last by exact HD. rewrite strrchr_last by exact NS.
    rewrite !app_length in *. cbn [List.length] in *. rewrite app_length in HL. cbn [List.length] in HL.
    destruct (Nat.ltb_spec (List.length dir + S (List.length stem)) (S (List.length dir))) as [K|K]; [lia|].
    destruct (Nat.leb_spec MAX_ARR (List.length dir + S (List.length stem) - S (List.length dir))) as [L|L]; [lia|].
    replace (List.length dir + S (List.length stem) - S (List.length dir)) with (List.length stem) by lia.
    assert (SK : skipn (S (List.length dir)) (dir ++ "/"%char :: stem ++ "."%char :: ext) = stem ++ "."%char :: ext).
    { replace (dir ++ "/"%char :: stem ++ "."%char :: ext) with ((dir ++ ["/"%char]) ++ stem ++ "."%char :: ext) by (rewrite <- app_assoc; reflexivity).
      replace (S (List.length dir)) with (List.length (dir ++ ["/"%char])) by (rewrite app_length; cbn [List.length]; lia). apply skipn_len. }
    rewrite SK, firstn_len. reflexivity.
  - unfold find_relative_root_path. destruct (Nat.leb_spec MAX_ARR (List.length (dir ++ "/"%char :: stem ++ "."%char :: ext))); [lia|].
    rewrite strrchr_last by exact NS. reflexivity.
Qed.
Theorem file_name_here stem ext : ~ In "/"%char stem -> ~ In "/"%char ext -> ~ In "."%char ext ->
  List.length (stem ++ S_ "." ++ ext) < MAX_ARR ->
  find_inputfile_name (stem ++ S_ "." ++ ext) = Ok (stem ++ S_ "." ++ ext, stem) /\
  find_relative_root_path (stem ++ S_ "." ++ ext) = Ok (S_ ".").
Proof.
  intros HS HE HD HL. change (S_ ".") with ["."%char] in *. cbn [List.app] in *.
  assert (NS : ~ In "/"%char (stem ++ "."%char :: ext)).
  { rewrite in_app_iff. cbn [In]. intros [K|[K|K]]; [exact (HS K)|discriminate|exact (HE K)]. }
  split.
  - unfold find_inputfile_name. rewrite strrchr_last by exact HD. rewrite strrchr_none by exact NS. cbn [Nat.ltb Nat.leb skipn]. rewrite Nat.sub_0_r.
    rewrite app_length in HL. cbn [List.length] in HL. destruct (Nat.leb_spec MAX_ARR (List.length stem)); [lia|].
    rewrite firstn_len. destruct (Nat.ltb_spec (List.length stem) 0); [lia|]. reflexivity.
  - unfold find_relative_root_path. destruct (Nat.leb_spec MAX_ARR (List.length (stem ++ "."%char :: ext))); [lia|].
    rewrite strrchr_none by exact NS. reflexivity.
Qed.
Theorem no_extension path : ~ In "."%char path -> find_inputfile_name path = Abort.
Proof. intros H. unfold find_inputfile_name. rewrite strrchr_none by exact H. reflexivity. Qed.
Theorem dot_in_directory_only d1 d2 name : ~ In "."%char d2 -> ~ In "."%char name -> ~ In "/"%char name ->
  find_inputfile_name (d1 ++ S_ "." ++ d2 ++ S_ "/" ++ name) = UB.
Proof.
  intros H1 H2 H3. change (S_ "/") with ["/"%char] in *. change (S_ ".") with ["."%char] in *. cbn [List.app] in *. unfold find_inputfile_name.
  rewrite strrchr_last.
  - replace (d1 ++ "."%char :: d2 ++ "/"%char :: name) with ((d1 ++ "."%char :: d2) ++ "/"%char :: name) by (rewrite <- app_assoc; reflexivity).
    rewrite strrchr_last by exact H3. rewrite app_length. cbn [List.length].
    destruct (Nat.ltb_spec (List.length d1) (S (List.length d1 + S (List.length d2)))); [reflexivity|lia].
  - rewrite in_app_iff. cbn [In]. intros [K|[K|K]]; [exact (H1 K)|discriminate|exact (H2 K)].
Qed.
Theorem open_never_reopens can top name fs d fs' : (forall x, In x fs -> ~ ends_0000 x) ->
  make_directory can fs top name = Ok (d, fs') ->
  forall d2 fs2, open_folder can fs' top name = Ok (d2, fs2) -> (forall x, In x fs' -> x <> d2) /\ make_directory can fs' top name = Ok (d2, fs2).
Proof.
  intros H M d2 fs2 O. apply make_ok in M. destruct M as (i & -> & _ & M & _).
  assert (H' : forall x, In x fs' -> ~ ends_0000 x).
  { intros x Hx. destruct M as [->| ->]; [apply H; exact Hx|]. destruct Hx as [<-|Hx]; [apply folder2_not_0000|apply H; exact Hx]. }
  pose proof (open_makes _ _ _ _ _ H' O) as K. split; [|exact K]. intros x Hx ->. apply make_ok in K. destruct K as (j & _ & NI & _). exact (NI Hx).
Qed.
(** open_folder with name_0000 ... name_k present and the next one absent: the last of the run, nothing made *)
Theorem open_last can fs top name k :
  (forall j, j <= List.length fs -> List.length (folder_path 4 top name j) < MAX_ARR) ->
  (forall j, j <= k -> In (folder_path 4 top name j) fs) -> ~ In (folder_path 4 top name (S k)) fs ->
  open_folder can fs top name = Ok (folder_path 4 top name k, fs).
Proof.
  intros HL HI HN. unfold open_folder.
  destruct (probe_spec 4 fs top name (S (List.length fs)) 0 ltac:(lia) ltac:(lia) HL) as (i & -> & N & A). cbn [obind].
  assert (i = S k) as ->; [|reflexivity].
  destruct (Nat.lt_trichotomy i (S k)) as [L|[E|L]]; [exfalso; apply N; apply HI; lia|exact E|exfalso; apply HN; apply A; exact L].
Qed.
